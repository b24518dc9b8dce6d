{"id": "C01", "title": "SimdArray split sizes", "statement": "For every N>=1 a SimdArray<T,N> that does not fit one native vector is divided into a left part whose size is a power of two and a non-empty right part no larger than the left, and both sizes add up to N; the compile-time recursion that computes them stops for every N.", "quantifier": "every N >= 1 (below 2^63)", "why_tests_cant": "N is unbounded; tests instantiate a handful of N.", "anchors": ["Vc/common/utility.h: NextPowerOfTwo, left_size, right_size", "Vc/common/simdarrayfwd.h: SimdArrayTraits"]}
{"id": "C02", "title": "SimdArray elementwise operations", "statement": "For any SimdArray<T,N>, element i of a unary/binary operator, comparison, or function result is the scalar operation applied to element i of the operands; no element influences another.", "quantifier": "every N, every native width set, every element operation, every operand values", "why_tests_cant": "holds for all N and all values; the class recurses over two differently sized halves.", "anchors": ["Vc/common/simdarray.h: operators, fromOperation", "Vc/common/simdarrayhelper.h: Split, Segment"]}
{"id": "C03", "title": "SimdArray load/store/subscript round trip", "statement": "Loading a SimdArray<T,N> from memory reads exactly mem[0..N), element i being mem[i]; storing writes exactly mem[0..N) and leaves everything else unchanged; a[i] reads and writes exactly element i.", "quantifier": "every N, every memory content, base offset and index", "why_tests_cant": "unbounded N, arbitrary memory.", "anchors": ["Vc/common/simdarray.h: load, store, get, set", "Vc/common/simdmaskarray.h: get, set"]}
{"id": "C04", "title": "SimdArray generate", "statement": "SimdArray::generate(f) (and IndexesFromZero) calls f with 0..N-1 and puts f(i) in element i.", "quantifier": "every N and every generator function", "why_tests_cant": "all functions and all N.", "anchors": ["Vc/common/simdarray.h: generate, IndexesFromZero constructor"]}
{"id": "C05", "title": "shifted(amount) moves elements and fills with zero", "statement": "x.shifted(k)[i] equals x[i+k] if 0<=i+k<N and 0 otherwise.", "quantifier": "every vector type/N, every value, every int amount (positive, negative, larger than N)", "why_tests_cant": "amount and N unbounded; unit tests only cover native vectors.", "anchors": ["Vc/common/simdarray.h: SimdArray::shifted(int)", "Vc/sse/vector.tcc: Vector::shifted(int)", "Vc/scalar/vector.h: shifted"]}
{"id": "C06", "title": "shifted(amount, shiftIn) is a window over neighbouring data", "statement": "x.shifted(k, s)[i] is element i+k of the sequence s,x,s (x at positions 0..N-1), and 0 beyond it.", "quantifier": "every vector type/N, values x and s of the same size, every amount with |amount| < 2N", "why_tests_cant": "amount and N unbounded.", "anchors": ["Vc/common/simdarray.h: SimdArray::shifted(int, SimdArray)", "Vc/sse/vector.tcc: Vector::shifted(int, Vector)"]}
{"id": "C07", "title": "rotated(amount) is a cyclic rotation", "statement": "x.rotated(k)[i] equals x[(i+k) mod N].", "quantifier": "every vector type/N and every int amount, including negative amounts and |amount|>N", "why_tests_cant": "many data dependent branches over N and amount; cannot be enumerated.", "anchors": ["Vc/common/simdarray.h: rotated", "Vc/sse/vector.tcc: rotated"]}
{"id": "C08", "title": "reversed() reverses", "statement": "x.reversed()[i] equals x[N-1-i].", "quantifier": "every vector type/N and every value", "why_tests_cant": "unbounded N.", "anchors": ["Vc/common/simdarray.h: reversed", "Vc/sse/vector.tcc: reversed"]}
{"id": "C09", "title": "interleaveLow/interleaveHigh", "statement": "a.interleaveLow(b) followed by a.interleaveHigh(b) is the sequence a0 b0 a1 b1 ... of length 2N.", "quantifier": "every vector type/N and all values", "why_tests_cant": "unbounded N; odd sizes need element shifts.", "anchors": ["Vc/common/simdarray.h: interleaveLow, interleaveHigh", "Vc/sse/vector.tcc: interleaveLow/High"]}
{"id": "C10", "title": "sorted() sorts", "statement": "x.sorted() is in non-decreasing order and is a permutation of x.", "quantifier": "every element type with a total order, every N, every input", "why_tests_cant": "2^(8*16) inputs for one vector; unbounded N.", "anchors": ["src/sse_sorthelper.cpp", "src/avx_sorthelper.cpp", "Vc/common/simdarray.h: sorted, sortedImpl"]}
{"id": "C11", "title": "sorted() on floating-point special values", "statement": "For float/double vectors and SimdArrays without NaN sorted() returns the values in non-decreasing order without losing any; with NaN or zeros of both signs elements may be lost or duplicated (finding).", "quantifier": "every float and double vector, and SimdArrays of every size in every build", "why_tests_cant": "2^128 inputs", "anchors": ["src/sse_sorthelper.cpp: float", "src/avx_sorthelper.cpp: float, double"]}
{"id": "C12", "title": "partialSum()", "statement": "x.partialSum()[i] equals x[0]+...+x[i] for every associative addition; for float and double it is the exact sum where no sum of some of the entries is rounded and no entry is -0.0.", "quantifier": "every vector type/N and all values", "why_tests_cant": "unbounded N and all values", "anchors": ["Vc/common/simdarray.h: partialSum", "Vc/sse/vector.tcc: partialSum"]}
{"id": "C13", "title": "horizontal reductions", "statement": "min(), max(), sum(), product() equal the left-to-right fold of the scalar operation over all elements, for associative and commutative operations (integers modulo 2^w, total orders).", "quantifier": "every vector type/N and all values", "why_tests_cant": "all values, all N", "anchors": ["Vc/common/simdarray.h: Vc_REDUCTION_FUNCTION_", "Vc/sse/vectorhelper.h: min/max/mul/add", "Vc/sse/detail.h: add/mul/min/max reductions"]}
{"id": "C14", "title": "masked reductions", "statement": "min(mask), max(mask), sum(mask), product(mask) depend only on the selected elements and equal the reduction of just those elements, whenever at least one element is selected; with an empty mask sum(mask) is 0 and product(mask) is 1 for integer types. For float and double sum(mask) is the exact sum of the selected elements where no sum of some of them is rounded and none is -0.0, and product(mask) is the exact product of the selected elements (1 if there are none) where they are integers and no product of some of them exceeds 2^24 or 2^53.", "quantifier": "every vector type/N, mask and values", "why_tests_cant": "2^N masks times all values", "anchors": ["Vc/sse/vector.tcc: min/max/product/sum(MaskArg)", "Vc/scalar/vector.h", "Vc/common/simdarray.h: name_(mask)"]}
{"id": "C15", "title": "write-masked operations leave unselected elements alone", "statement": "where(mask)|x op= y (and x(mask) op= y, iif, ++, --) changes element i to x[i] op y[i] exactly when mask[i] is true and leaves every other element bit-for-bit unchanged.", "quantifier": "every vector type/N, mask, operator and operands", "why_tests_cant": "all masks times all values", "anchors": ["Vc/common/where.h", "Vc/common/writemaskedvector.h", "Vc/common/iif.h", "Vc/sse/vector.h: assign", "Vc/common/simdarray.h: assign"]}
{"id": "C16", "title": "mask queries agree with the elements", "statement": "For every mask: isFull/isEmpty/isNotEmpty/isMix, count(), firstOne() (non-empty masks) and toInt() (N<=31) are determined by the booleans m[0..N-1] in the obvious way, and the boolean operators act elementwise.", "quantifier": "every mask type/N, every mask value", "why_tests_cant": "2^N masks, every N", "anchors": ["Vc/common/simdmaskarray.h", "Vc/sse/mask.h", "Vc/sse/mask.tcc: mask_count, mask_to_int, firstOne", "Vc/sse/detail.h: popcnt"]}
{"id": "C17", "title": "mask shifted and generate", "statement": "mask.shifted(k)[i] is m[i+k] if in range and false otherwise; generate(f)[i] is f(i).", "quantifier": "every mask type/N and every int amount", "why_tests_cant": "unbounded amounts", "anchors": ["Vc/common/simdmaskarray.h: shifted, generate", "Vc/sse/mask.tcc: shifted, generate"]}
{"id": "C18", "title": "mask load/store round trip", "statement": "Storing a mask to bool* writes exactly N bools (0 or 1), and loading them back gives the same mask.", "quantifier": "every SSE mask width and every mask", "why_tests_cant": "2^N masks and all memory contents", "anchors": ["Vc/sse/mask.tcc: mask_store, mask_load, double_m::store"]}
{"id": "C19", "title": "mask conversion preserves the elements", "statement": "Converting a mask between vector types of different entry size keeps element i for all common elements.", "quantifier": "every pair of widths and every mask", "why_tests_cant": "all masks", "anchors": ["Vc/sse/detail.h: mask_cast", "Vc/common/simdarray.h: simd_cast for masks"]}
{"id": "C20", "title": "iteration over set mask entries", "statement": "for (int i : where(mask)) visits exactly the indices of the true elements, each once, in increasing order, then stops.", "quantifier": "every mask bit pattern", "why_tests_cant": "all 2^N masks, every N", "anchors": ["Vc/common/iterators.h: BitmaskIterator", "Vc/common/where.h"]}
{"id": "C21", "title": "emulated unsigned and 64-bit comparisons", "statement": "The comparison operators on unsigned integer vectors and the 64-bit compare emulations give, per element, the mathematical comparison of the unsigned (resp. signed) values.", "quantifier": "all register contents", "why_tests_cant": "2^128 x 2^128 operand pairs", "anchors": ["Vc/sse/intrinsics.h: cmpgt_epu8/16/32, cmplt_epu*, cmpgt_epi64, cmpeq_epi64"]}
{"id": "C22", "title": "emulated min/max/abs/blend/multiply", "statement": "The SSE2 fallbacks for min/max/abs/blend/alignr/mul compute, per element, the same result as the SSE4.1/SSSE3 instructions they replace.", "quantifier": "all register contents (and all immediates)", "why_tests_cant": "2^256 operand pairs", "anchors": ["Vc/sse/intrinsics.h: min_*/max_*/abs_*/blendv_*/blend_*/alignr_epi8", "Vc/sse/detail.h: mul"]}
{"id": "C23", "title": "integer division of vectors", "statement": "a/b and a%b of int, unsigned int, short and unsigned short vectors give the truncated quotient and the matching remainder whenever no divisor is zero and the quotient is representable.", "quantifier": "all pairs of element values", "why_tests_cant": "2^32 pairs per lane; goes through float arithmetic", "anchors": ["Vc/sse/vector.tcc: operator/, operator%", "Vc/sse/vectorhelper.h: concat, expand0, expand1"]}
{"id": "C24", "title": "gather reads exactly the selected elements", "statement": "After v.gather(mem, idx, mask) element i equals mem[idx[i]] if mask[i] and its old value otherwise, no memory other than mem[idx[i]] with mask[i] is read, and all implementation strategies agree.", "quantifier": "every N, index vector, mask, memory", "why_tests_cant": "all masks, indexes and memories", "anchors": ["Vc/common/gatherimplementation.h", "Vc/common/gatherinterface.h", "Vc/sse/vector.tcc: gatherImplementation", "Vc/avx/vector.tcc: gatherImplementation", "Vc/avx/vector.h: gatherImplementation (AVX2)", "Vc/avx/intrinsics.h: gather"]}
{"id": "C25", "title": "scatter writes exactly the selected elements", "statement": "v.scatter(mem, idx, mask) writes v[i] to mem[idx[i]] for exactly the selected i (for equal indexes the highest i wins), touches nothing else, and all strategies agree.", "quantifier": "every N, index vector (with or without duplicates), mask, memory", "why_tests_cant": "all masks, indexes and memories", "anchors": ["Vc/common/scatterimplementation.h", "Vc/sse/vector.tcc: scatterImplementation", "Vc/avx/vector.tcc: scatterImplementation"]}
{"id": "C26", "title": "interleaved memory access", "statement": "Writing K vectors through InterleavedMemoryWrapper and reading them back at the same indexes returns the same vectors; only the first K members of the addressed structs are modified.", "quantifier": "every struct size, member count K, index vector without duplicates, all values", "why_tests_cant": "all indexes and memories", "anchors": ["Vc/common/interleavedmemory.h", "Vc/sse/detail.h: InterleaveImpl", "Vc/avx/detail.h: InterleaveImpl<V,16,32>, <V,8,32>, <V,4,32>"]}
{"id": "C27", "title": "native interleave/deinterleave shuffles", "statement": "The register shuffles that interleave 2..8 vectors into memory and deinterleave them put component c of element i at position base[i]+c and nowhere else, for the SSE vectors with 2, 4 and 8 entries and the AVX vectors with 4, 8 and 16 entries.", "quantifier": "all register contents, all bases", "why_tests_cant": "all values; shuffle networks", "anchors": ["Vc/sse/detail.h: InterleaveImpl<V,8,16>, <V,4,16>, <V,2,16>", "Vc/avx/detail.h: InterleaveImpl<V,16,32>, <V,8,32>, <V,4,32>"]}
{"id": "C28", "title": "simd_for_each visits every element exactly once", "statement": "simd_for_each / simd_for_each_n over n scalars applies the function to each element exactly once in order (whole vectors first, remainder one by one), touches nothing outside the range and, for mutating functions, writes every result back.", "quantifier": "every n (including 0 and n<V::Size), every vector size", "why_tests_cant": "unbounded n", "anchors": ["Vc/common/algorithms.h: simd_for_each, simd_for_each_n"]}
{"id": "C29", "title": "Memory: padding and vector access stay in bounds", "statement": "Memory<V,N> and Memory<V>(n) allocate a whole number of vectors covering all entries with less than one vector of padding; vector(i) for i<vectorsCount() is in bounds, and the vectors partition the entries in order.", "quantifier": "every entry count n and vector size", "why_tests_cant": "unbounded n; size_t arithmetic", "anchors": ["Vc/common/memory.h", "Vc/common/memorybase.h: vector, firstVector, lastVector"]}
{"id": "C30", "title": "Memory: copying and assignment", "statement": "Copying/assigning a Memory copies every entry and nothing else, regardless of the loop unrolling; operators +=,-= etc. act on every vector exactly once.", "quantifier": "every vector count", "why_tests_cant": "unbounded sizes", "anchors": ["Vc/common/memorybase.h: Detail::copyVectors, operator+=...", "Vc/common/memory.h"]}
{"id": "C31", "title": "Memory comparisons", "statement": "a==b holds iff all entries are equal, a<b iff all entries are less, and a!=b should be the negation of a==b (refuted: != demands that all vectors differ in every entry).", "quantifier": "every pair of Memory objects of equal size", "why_tests_cant": "all contents", "anchors": ["Vc/common/memorybase.h: operator==, !=, <, ..."]}
{"id": "C32", "title": "aligned allocation", "statement": "Vc::malloc<T,A>(n) returns a block aligned to A that holds at least n T's and whose padded size is a multiple of the alignment; free returns the pointer obtained from the system.", "quantifier": "every n, element size, alignment power of two", "why_tests_cant": "size_t arithmetic wraps for huge n", "anchors": ["Vc/common/malloc.h: nextMultipleOf, aligned_malloc, malloc"]}
{"id": "C33", "title": "integer narrowing and widening casts", "statement": "simd_cast between integer vector types converts element i like static_cast on the scalar (modulo 2^w), and the concatenating/splitting forms keep element order.", "quantifier": "all values, all widths", "why_tests_cant": "all register contents", "anchors": ["Vc/sse/simd_cast.h", "Vc/sse/casts.h: convert"]}
{"id": "C34", "title": "unsigned to floating-point conversion", "statement": "Converting unsigned int vectors to float gives the correctly rounded value for all 2^32 inputs, and to double the exact value.", "quantifier": "all 2^32 values per element", "why_tests_cant": "emulated via 16-bit halves", "anchors": ["Vc/sse/casts.h: convert<uint,float>, convert<uint,double>, convert<double,uint>"]}
{"id": "C35", "title": "4x4 transpose", "statement": "Vc::transpose writes column j of the four input vectors to output vector j, for all values.", "quantifier": "all register contents", "why_tests_cant": "all values", "anchors": ["Vc/sse/vector.tcc: transpose_impl", "Vc/common/transpose.h", "Vc/common/simdarray.h: transpose_impl"]}
{"id": "C36", "title": "Rounding functions", "statement": "trunc/floor/ceil/round return the mathematically rounded value for every finite input and keep its sign (refuted for large doubles on the SSE2 path and for round of the Scalar vectors).", "quantifier": "all float/double values", "why_tests_cant": "2^32 / 2^64 inputs", "anchors": ["Vc/sse/math.h: trunc, floor, ceil", "Vc/sse/vectorhelper.h: round", "Vc/avx/math.h: trunc, floor, ceil", "Vc/avx/vectorhelper.h: round", "Vc/scalar/math.h: trunc, floor, ceil, round"]}
{"id": "C37", "title": "frexp/ldexp/exponent", "statement": "frexp returns m in [0.5,1) and e with x = m*2^e, ldexp(m,e) reverses it, and exponent(x) is floor(log2|x|), for every normal x.", "quantifier": "all normal float/double values and in-range exponents", "why_tests_cant": "all bit patterns", "anchors": ["Vc/sse/math.h: frexp, ldexp", "Vc/sse/vector.tcc: exponent", "Vc/avx/math.h: frexp, ldexp", "Vc/avx/vector.tcc: exponent"]}
{"id": "C38", "title": "floating-point classification and sign functions", "statement": "isnan/isinf/isfinite/isnegative/copysign/abs agree with IEEE-754 on every bit pattern.", "quantifier": "all 2^32/2^64 bit patterns", "why_tests_cant": "all bit patterns", "anchors": ["Vc/sse/math.h: copysign", "Vc/sse/vectorhelper.h: isFinite, isInfinite, isNotFinite...", "Vc/sse/vector.tcc: isnegative", "Vc/avx/math.h: abs, isfinite, isinf, isnan, copysign", "Vc/avx/vector.tcc: isnegative", "Vc/scalar/math.h: abs, copysign, min, max, isfinite, isinf, isnan"]}
{"id": "C39", "title": "floating-point comparisons and NaN", "statement": "x>=y on float vectors equals the scalar comparison for every pair of values (refuted: NaN>=y yields true).", "quantifier": "all pairs of bit patterns", "why_tests_cant": "all pairs", "anchors": ["Vc/sse/vector.tcc: comparison operators"]}
{"id": "C40", "title": "Random() range", "statement": "float_v/double_v::Random() always returns finite values in [0,1) whatever the generator state.", "quantifier": "every generator state", "why_tests_cant": "2^64 states, unbounded histories", "anchors": ["Vc/sse/vector.tcc: Random", "Vc/scalar/vector.tcc: Random", "Vc/avx/vector.tcc: Random"]}
{"id": "C41", "title": "simdize assign/extract/swap", "statement": "For a simdized structure, assign(a,i,x) followed by extract(a,j) gives x for j=i and the old element otherwise; swap exchanges exactly the two named lanes (also within one object); shifted, where, construction from a scalar or a function and load/store_interleaved act on whole structs.", "quantifier": "every struct arity, lane count, lanes i,j and values", "why_tests_cant": "all arities and values", "anchors": ["Vc/common/simdize.h: assign_impl, extract_impl, swap_impl"]}
{"id": "C42", "title": "simdized iterators", "statement": "Stepping a simdized iterator from begin visits consecutive chunks of Size elements; reading, assigning and -> act on exactly these elements; arithmetic and comparison operators are consistent with the distance (refuted: it<=it is false; it[i] = x uses a dangling reference; the != loop overruns containers whose size is not a multiple of Size).", "quantifier": "every iterator position", "why_tests_cant": "unbounded positions", "anchors": ["Vc/common/simdize.h: IteratorDetails::Iterator"]}
{"id": "C43", "title": "callWithValuesSorted and apply", "statement": "x.callWithValuesSorted(f) calls f once per run of equal consecutive values, hence once per distinct value when x is sorted; apply(f, mask) calls f exactly on the selected elements.", "quantifier": "every vector value and mask", "why_tests_cant": "all values", "anchors": ["Vc/sse/vector.h: callWithValuesSorted, call, apply"]}
{"id": "C44", "title": "bit-vector lane shuffles", "statement": "Mem::shuffle/permute/blend<...> template helpers produce the named source elements for every combination of template arguments (refuted for the two-element double permute).", "quantifier": "all template arguments and register contents", "why_tests_cant": "all values", "anchors": ["Vc/sse/shuffle.h"]}
{"id": "C45", "title": "deinterleave from memory", "statement": "deinterleave(&a,&b,mem) puts the even entries of mem in a and the odd entries in b, reading exactly 2*Size entries, including the converting variants; deinterleave(&a,&b,&c,mem) splits by position modulo 3.", "quantifier": "all memory contents", "why_tests_cant": "all values", "anchors": ["Vc/sse/deinterleave.tcc", "Vc/common/deinterleave.h", "Vc/avx/deinterleave.tcc"]}
{"id": "C46", "title": "casts from and to floating-point vectors", "statement": "simd_cast (all overloads, with and without offset) and the converting constructors between float, double and integer vectors convert entry i like static_cast: truncation towards zero for representable results, correct rounding to the target format otherwise, NaN and infinities preserved; entries keep their order.", "quantifier": "all bit patterns, all pairs of types, SSE2 and SSE4.1 builds", "why_tests_cant": "2^32 / 2^64 inputs per entry and interaction of the entries of one register", "anchors": ["Vc/sse/simd_cast.h", "Vc/sse/casts.h: convert", "Vc/sse/vector.h: converting constructors"]}
{"id": "C47", "title": "fused multiply-add", "statement": "fma(a, b, c) returns a*b+c rounded once for floating-point vectors and a*b+c modulo 2^bits for integer vectors (refuted for the emulations used without FMA instructions; proved for the cases in which the intermediate result is representable).", "quantifier": "all triples of finite floating-point values, all integers", "why_tests_cant": "2^96 / 2^192 input triples; the failing ones are rare", "anchors": ["Vc/sse/vectorhelper.h: fma", "doc/dox-math.h: fma", "Vc/avx/detail.h: fma", "Vc/scalar/math.h: fma"]}
{"id": "C48", "title": "simdize type transformation", "statement": "Whenever simdize<T, N> compiles, the result has the structure of T with exactly the arithmetic types, bools and iterators replaced by vectors, masks and simdized iterators, and all of these have the same number of entries (N if given); types without arithmetic types and iterators are unchanged. simdize compiles for all types built from arithmetic types, bool and class templates (proved for explicit N; refuted for N = 0 if a bool follows a vectorised class template).", "quantifier": "every nesting of class templates, arithmetic types, bool, iterators and other types; every N and mask type", "why_tests_cant": "unbounded nesting of types and argument lists", "anchors": ["Vc/common/simdize.h: ReplaceTypes, SubstituteOneByOne, simdize"]}
{"id": "C49", "title": "minIndex and maxIndex locate the first minimum and maximum", "statement": "v.minIndex() returns a vector with the minimum of v in all entries and the position of the first entry that has this value; v.maxIndex() likewise for the maximum.", "quantifier": "all vector types with these members, all contents, in particular several entries with the same extreme value", "why_tests_cant": "the space of contents is 2^256; the position depends on ties and on the bit-level path from compare result to integer index, which tests only sample", "anchors": ["Vc/avx/vector.tcc: Vector<T>::minIndex, maxIndex, float_v::minIndex", "Vc/avx/vector.h: minIndex, maxIndex"]}
{"id": "C50", "title": "Loads convert every element and respect the flags", "statement": "v.load(p, flags) for a vector or SimdArray v of N entries of type T and a pointer p to U gives entry i the value static_cast<T>(p[i]). It reads only the N elements of type U. Without Vc::Unaligned it is defined for every p aligned to MemoryAlignment of v, with it for every p.", "quantifier": "all entry types, memory types, N, flag combinations, memory contents, addresses, instruction sets", "why_tests_cant": "a load of N elements has 2^(8*sizeof(U)*N) contents and every conversion is a different instruction sequence; over-reads and alignment faults only show for particular addresses", "anchors": ["Vc/sse/detail.h: Detail::load overloads", "Vc/avx/detail.h: Detail::load overloads", "Vc/common/simdarray.h: SimdArray::load, MemoryAlignment", "Vc/common/loadinterface.h: load"]}
{"id": "C51", "title": "Stores write exactly the selected entries", "statement": "v.store(p, flags) makes p[i] equal to entry i for all i and changes nothing else; v.store(p, mask, flags) does so for the entries selected by the mask and neither changes nor needs any other element. Loading from p afterwards returns the same bits.", "quantifier": "all entry types, N, masks, flag combinations, memory contents and addresses, SSE, AVX and AVX2 builds", "why_tests_cant": "a store that writes one byte too many, or a masked store that touches an unselected element, is only visible with particular masks next to unmapped or concurrently used memory", "anchors": ["Vc/common/storeinterface.h: store", "Vc/sse/vectorhelper.h: VectorHelper::store", "Vc/avx/vectorhelper.h: VectorHelper::store", "Vc/common/simdarray.h: SimdArray::store"]}
{"id": "C52", "title": "sin and cos: symmetry and special values", "statement": "sin(-x) is -sin(x) and cos(-x) is cos(x), bit by bit, for every vector; sin(+-0) is +-0, cos(+-0) is 1; sin and cos of infinities and NaN are NaN. (Accuracy is not claimed; for double vectors beyond 2^31 quarter turns the result is not a sine at all, refuted.)", "quantifier": "all vector contents, float and double, all numbers of entries", "why_tests_cant": "2^32 or 2^64 arguments per entry and the code path depends on all entries of the vector", "anchors": ["Vc/common/trigonometric.h: sin, cos, sincos", "src/trigonometric.cpp: Trigonometric::sin, cos, sincos, foldInput"]}
{"id": "C53", "title": "sin and cos work entry by entry", "statement": "the result for an entry depends only on that entry, not on the others in the same vector (true while all arguments are small; refuted in general because the range reduction is chosen for the whole vector).", "quantifier": "all vector contents and positions", "why_tests_cant": "the failing combinations are pairs of arguments in different ranges; a test that fills a vector with neighbouring values never sees them", "anchors": ["src/trigonometric.cpp: foldInput, sin, cos"]}
{"id": "C54", "title": "sincos agrees with sin and cos", "statement": "sincos(x, &s, &c) stores exactly the bits of sin(x) and cos(x) (refuted for float arguments between 393382 and 527449).", "quantifier": "all vector contents, float and double", "why_tests_cant": "the two functions use different limits; only arguments between them differ", "anchors": ["src/trigonometric.cpp: Trigonometric::sincos"]}
{"id": "C55", "title": "log, log2, log10: exact cases and special values", "statement": "log2 of a power of two is that exponent exactly, including denormals; the logarithm of 1 is +0; of +-0 it is -infinity; of a negative number NaN. (The logarithm of +infinity and NaN is finite: refuted.)", "quantifier": "all float and double values, all three bases", "why_tests_cant": "2^64 inputs; special values hide in the exponent handling", "anchors": ["Vc/common/logarithm.h: calc, log, log2, log10"]}
{"id": "C56", "title": "exp: exact cases, overflow and underflow", "statement": "exp(+-0) is exactly 1; arguments above the range give +infinity, below it 0, NaN gives NaN. (Refuted: doubles from 708.4 on overflow early, float results in the denormal range are wrong, builds whose > is true on NaN return +infinity.)", "quantifier": "all float and double values, with and without SSE4.1", "why_tests_cant": "the boundaries are single bit patterns in 2^64", "anchors": ["Vc/common/exponential.h: exp", "Vc/common/math.h: exp"]}
{"id": "C57", "title": "asin, atan and atan2: domain, symmetry and special values", "statement": "asin is NaN outside [-1, 1], exactly x for small x and +-pi/2 at +-1; asin and atan are odd bit by bit; atan(+-infinity) is +-pi/2; atan2 returns all the values the C standard requires for zeros, infinities and NaN, and is odd in y. (Refuted: asin of float and atan lose the sign of -0.)", "quantifier": "all float and double values or pairs of values, all builds", "why_tests_cant": "2^128 argument pairs for atan2; each special case is a masked assignment that can override another", "anchors": ["src/trigonometric.cpp: asin, atan, atan2"]}
{"id": "C58", "title": "simd_cast from and to SimdArray", "statement": "simd_cast<Return>(x0, x1, ...) of SimdArrays or native vectors of any size into a native vector or a SimdArray with any number m of entries converts entry i of the arguments (counted through) like static_cast into entry i, and fills the rest with zeros; simd_cast<Return, k>(x) does it with the entries from k*m on. (Refuted: with an offset, if neither size is a power of two; floats from 32768 on into ushort_v from Scalar vectors.)", "quantifier": "all element types, all sizes of arguments and result, all numbers of arguments, all offsets, all contents, SSE and AVX builds", "why_tests_cant": "the overload that is taken depends on the sizes; there are infinitely many combinations of sizes and numbers of arguments", "anchors": ["Vc/common/simdarray.h: simd_cast, simd_cast_with_offset, simd_cast_drop_arguments, simd_cast_interleaved_argument_order", "Vc/common/simd_cast.h", "Vc/sse/simd_cast.h", "Vc/avx/simd_cast.h", "Vc/scalar/simd_cast.h"]}
{"id": "C59", "title": "Conversions between SimdArray types and to native vectors", "statement": "Constructing a SimdArray<T, N> from a SimdArray<U, N>, and converting a SimdArray<U, N> to a native vector with N entries of type T, converts every entry like static_cast; integers survive the way to a type that is not narrower and back.", "quantifier": "all element types, all N, all contents, SSE and AVX builds", "why_tests_cant": "the splitting of both types into native vectors differs and depends on N", "anchors": ["Vc/common/simdarray.h: SimdArray::SimdArray(const SimdArray<U, N> &), operator Vector", "Vc/common/simdarrayhelper.h: Split, actual_value", "Vc/common/simd_cast_caller.tcc"]}
{"id": "C60", "title": "Vc::Allocator gives aligned, disjoint storage and returns it", "statement": "For every history of allocate and deallocate calls: every object is aligned for its type and for the vectors of the build, lies inside storage obtained from ::operator new, overlaps no other object, and deallocate passes to ::operator delete the address ::operator new had returned; no byte of another object changes.", "quantifier": "all element types (size, alignment), all n, all answers of ::operator new, all histories of calls and writes", "why_tests_cant": "alignment depends on addresses the allocator happens to get and on the whole history of calls", "anchors": ["Vc/Allocator: Allocator::allocate, deallocate, max_size, address"]}
{"id": "C61", "title": "makeContainer keeps the entries in order", "statement": "makeContainer<Container>{...} returns the smallest number of vectors that hold the entries; the entries are those of the list in order, followed by zeros.", "quantifier": "all lists, all vector sizes", "why_tests_cant": "number of vectors and padding depend on the length of the list", "anchors": ["Vc/common/makeContainer.h: makeContainer, make_container_helper"]}
{"id": "C62", "title": "Feature tests agree with what the processor can run", "statement": "isImplementationSupported(i) is true exactly if the processor has all the instruction sets of the implementation and the operating system saves the registers they use; bestImplementationSupported() is the best of them; currentImplementationSupported() is true exactly if the program's instruction sets can be used.", "quantifier": "all answers of CPUID and XGETBV, all implementations, all sets of compiler flags", "why_tests_cant": "needs processors and operating systems the tests do not run on", "anchors": ["Vc/support.h: isImplementationSupported, bestImplementationSupported, extraInstructionsSupported, currentImplementationSupported", "src/support_x86.cpp", "Vc/cpuid.h"]}
{"id": "C63", "title": "CpuId reports the family, model and line size of the processor", "statement": "CpuId::processorFamily() and processorModel() are the displayed family and model of the vendor's manual; cacheLineSize() and logicalProcessors() the reported values.", "quantifier": "all CPUID answers", "why_tests_cant": "needs processors the tests do not run on", "anchors": ["src/cpuid.cpp: CpuId::init", "Vc/cpuid.h: processorFamily, processorModel, cacheLineSize, logicalProcessors"]}
{"id": "C64", "title": "CpuId reports the caches of the processor", "statement": "L1Data(), L1Instruction(), L2Data(), L3Data(), the line sizes and associativities are those the processor describes through CPUID leafs 2 and 4 (or 0x80000005 and 0x80000006).", "quantifier": "all CPUID answers, all sequences of descriptors and cache leafs", "why_tests_cant": "needs processors the tests do not run on", "anchors": ["src/cpuid.cpp: CpuId::init, CpuId::interpret", "Vc/cpuid.h"]}
{"id": "C65", "title": "Subscripts with index vectors read and write the members they name", "statement": "For data[indexes][&S::member]... with further members, array subscripts and inner index vectors, conversion to a vector reads in entry i the number at exactly that place of object indexes[i], and assignment of a vector writes exactly there, also under a write mask; nothing else is read or written.", "quantifier": "all object types and layouts, all chains of subscripts, all indexes, kinds of index containers, sizes, builds", "why_tests_cant": "the types, layouts, chains and index values are unbounded; tests use a few structs with small indexes", "anchors": ["Vc/common/subscript.h: SubscriptOperation, applyScale, applyScaleAndAdd, subscript_operator", "Vc/common/gatherinterface.h: gather", "Vc/common/scatterinterface.h: scatter", "Vc/avx/vector.h: gatherImplementation"]}
{"id": "C66", "title": "Parts of spans and access through them", "statement": "first(n), last(n) and subspan(o, n), with arguments or template arguments and in any chain, give a span over exactly the named part of the sequence, and are rejected by an assertion if the part is not inside; subscripts, iteration in both directions and size() see exactly the entries of that part in order; comparison is the lexicographical one of the contents.", "quantifier": "all sequences, all chains of calls, all static and dynamic extents, all entries", "why_tests_cant": "sequences, offsets, counts and chains are unbounded; an unchecked part reads foreign memory without a visible failure", "anchors": ["Vc/common/span.h: span, subspan, first, last, operator==, operator<"]}
{"id": "C67", "title": "References to entries and the layout of SimdArray objects", "statement": "a[i] of a vector or mask refers to entry i: reading, assignment, compound assignment, ++ and --, and swap act on that entry as on a scalar and change no other entry. The entries of a SimdArray are adjacent in memory without gaps, and the size of the object is that of the entries rounded up to the alignment.", "quantifier": "all sizes, entry types, alignment limits, indexes, contents, scalar operations", "why_tests_cant": "sizes and indexes are unbounded; the layout follows from a recursive split that differs for every size", "anchors": ["Vc/common/elementreference.h: ElementReference, swap", "Vc/common/simdarray.h: SimdArray (alignas, data0, data1), operator[]", "Vc/common/utility.h: BoundedAlignment"]}
{"id": "C68", "title": "Types and values of operators on different types", "statement": "A binary operator with a vector and a scalar (or vector) of another arithmetic type either does not compile or gives the type of C++'s usual arithmetic conversions (except that types smaller than int are not promoted), independent of the order of operands; every entry is the value of the C++ expression converted to that type, and comparisons are those of C++.", "quantifier": "all pairs of arithmetic types, native and SimdArray operands, operators, all values", "why_tests_cant": "the values are unbounded and the types too many for the tests' lists; wrong conversions are visible only at range limits", "anchors": ["Vc/common/operators.h: ReturnType, Vc_GENERIC_OPERATOR, Vc_COMPARE_OPERATOR", "Vc/common/simdarray.h: result_vector_type, Vc_BINARY_OPERATORS_", "Vc/traits/is_implicit_cast_allowed.h"]}
{"id": "C69", "title": "Mathematical functions of SimdArray", "statement": "f(a) of a SimdArray (abs, copysign, trunc, floor, ceil, round, isfinite, isinf, isnan, isnegative, min, max, fma) has the correct value of f at every position, and equal entries give equal results wherever they are, for every size.", "quantifier": "all sizes N, builds (Scalar, SSE2, SSE4.1, AVX), entry types float and double, bit patterns", "why_tests_cant": "an array of N entries is evaluated by up to three different implementations (AVX, SSE and Scalar vectors), depending on the position; sizes and bit patterns are unbounded", "anchors": ["Vc/common/simdarray.h: Vc_FORWARD_UNARY_OPERATOR, Vc_FORWARD_BINARY_OPERATOR, fromOperation, fma", "Vc/scalar/math.h", "Vc/sse/math.h", "Vc/avx/math.h"]}
{"id": "C70", "title": "Compound division under a mask", "statement": "x(mask) /= y, x(mask) %= y, where(mask) | x /= y and where(mask) | x %= y of integer vectors set the selected entries to the quotient (remainder) and leave the others unchanged; entries that are not selected, such as zero divisors that the mask excludes, have no effect.", "quantifier": "all values of all entries, masks, builds, integer entry types and sizes", "why_tests_cant": "the entries that are not selected range over all values, including those for which the division is undefined; the entry values and the sizes are unbounded", "anchors": ["Vc/common/writemaskedvector.h: operator/=, operator%=", "Vc/common/where.h: MaskedLValue", "Vc/sse/vector.tcc: operator/, operator%", "Vc/avx/vector.tcc: operator/, operator%", "Vc/scalar/vector.h: conditional_assign", "Vc/scalar/operators.h: operator/", "Vc/common/simdarray.h: conditional_assign, operator()"]}
{"id": "C71", "title": "Text output shows the entries", "statement": "Writing a vector, mask, SimdArray, SimdMaskArray or Memory object to an output stream shows its entries, each once, in order, as numbers (bits for masks) that can be read back; colours on a terminal change nothing that is shown and are switched off at the end.", "quantifier": "all entry values, integer types, sizes, terminals and objects", "why_tests_cant": "the contents and the sizes are unbounded; a loop counter that is too short only shows with 2^32 vectors", "anchors": ["Vc/IO: operator<<", "Vc/common/simdarray.h: SimdArray", "Vc/common/memorybase.h: vectorsCount"]}
{"id": "C72", "title": "Iteration over the vectors of a Memory object", "statement": "A loop from begin() to end() of a Memory object visits vector(0), vector(1), ... once each and in order, in two dimensions row by row, and no vector of an empty object; range(first, last) visits vector(first) to vector(last), both included; assigning through the iterators changes exactly the vectors visited; the iterators' arithmetic and comparisons agree with the indexes.", "quantifier": "all sizes, contents, numbers of rows, first and last indexes, vector widths and functions assigned", "why_tests_cant": "sizes and contents are unbounded; the empty case works only through wrap-around of size_t", "anchors": ["Vc/common/memorybase.h: begin, end, range, MemoryVectorIterator, MemoryRange, MemoryVector"]}
{"id": "C73", "title": "tie through subscripts", "statement": "Vc::tie(x, y, ...) = data[indexes][&S::x][...] reads into x, y, ... the members of the objects that the indexes name, entry by entry, as separate gathers of each member do.", "quantifier": "all arrays, objects of any size, member offsets, indexes and contents", "why_tests_cant": "the index is right only for some sizes of the objects; contents, indexes and sizes are unbounded", "anchors": ["Vc/common/vectortuple.h: VectorReferenceArray::operator=", "Vc/common/subscript.h: SubscriptOperation", "Vc/common/interleavedmemory.h: InterleavedMemoryReadAccess"]}
{"id": "C74", "title": "Iteration over the entries of vectors and masks", "statement": "for (auto &&x : v) over a vector, mask, SimdArray or SimdMaskArray visits its entries, each once and in order, and assignments to x change exactly these entries; the iterators' arithmetic, comparisons and subscripts agree with the positions.", "quantifier": "all entry types, contents, sizes, positions and assigned functions", "why_tests_cant": "contents, sizes and pairs of iterators are unbounded", "anchors": ["Vc/common/iterators.h: Iterator, IteratorBase, begin, end, cbegin, cend", "Vc/common/elementreference.h: ElementReference"]}
{"id": "C75", "title": "Vc::array", "statement": "at(n) of a Vc::array refers to entry n if there is one and throws otherwise; fill changes exactly the entries; swap exchanges the contents of two arrays and nothing else; ==, != compare all entries and <, <=, >, >= order arrays lexicographically.", "quantifier": "all sizes, contents, size_t arguments and entry orders", "why_tests_cant": "sizes and contents are unbounded", "anchors": ["Vc/array: array::at, array::fill, array::swap, array::front, array::back, operator==, operator<"]}
{"id": "C76", "title": "Programs give the same results in every build", "statement": "A program written with the operations of SimdArray<T, N> and SimdMaskArray<T, N> for an integer type T (generate, arithmetic, shifts, comparisons, mask logic, write-masked assignment, rotated, reversed, sorted, shifted with and without a second vector, interleave, partialSum, ~, abs, reductions with and without a mask, entry access, loads, stores, gathers and scatters with and without a mask, mask queries), with any other code between the calls, gives the same results whether it is compiled for Scalar, SSE or AVX: it leaves the same memory, the same variables and the same entries in every vector and mask as when each operation acts on every entry as the C++ operator does.", "quantifier": "all programs (with branches and loops), all builds, entry types, sizes N, memories and initial states for which the entry by entry meaning is defined", "why_tests_cant": "programs, inputs and sizes are unbounded, and a test runs one build", "anchors": ["Vc/common/simdarray.h: SimdArray, SimdArray::load, SimdArray::store", "Vc/common/simdmaskarray.h: SimdMaskArray", "Vc/common/operators.h", "Vc/scalar/operators.h", "Vc/sse/vector.tcc", "Vc/avx/vector.tcc"]}
{"id": "C77", "title": "Accuracy of sin and cos", "statement": "For arguments of at most 2^30 in absolute value the entries of sin(x), cos(x) and of both results of sincos(x) are finite and differ from the real sine or cosine of the entry of x by at most 2^-22 for float and by at most 2^-51 for double, whatever the other entries of the vector are.", "quantifier": "all float and double vectors of any number of entries whose entries are at most 2^30 in absolute value, all entries, all builds", "why_tests_cant": "there are 2^31 float and 2^63 double arguments per entry and the way the argument is reduced depends on all entries; a test compares samples with another library, not with the real function", "anchors": ["src/trigonometric.cpp: Trigonometric::sin, Trigonometric::cos, Trigonometric::sincos, foldInput, cosSeries, sinSeries", "src/const.cpp: c_trig", "Vc/sse/const.h", "Vc/avx/const.h"]}
{"id": "C78", "title": "Accuracy of exp", "statement": "For float entries between -87 and 88 and for double entries of at most 708 in absolute value the entries of exp(x) are finite and their relative error against the real exponential function is at most 2^-21 for float and at most 2^-49 for double.", "quantifier": "all float and double values in these ranges, with and without SSE4.1, all builds", "why_tests_cant": "there are more than 2^30 float and 2^62 double arguments; a test compares samples with another library, not with the real function", "anchors": ["Vc/common/exponential.h: exp", "Vc/common/math.h: exp", "src/const.cpp: c_log", "Vc/sse/math.h: floor, ldexp"]}
{"id": "C79", "title": "Accuracy of log, log2 and log10", "statement": "For every finite positive float or double entry, subnormal numbers included, the entries of log(x), log2(x) and log10(x) are finite and their relative error against the real logarithms is at most 2^-21 for float and at most 2^-50 for double, also near x = 1 where the logarithm itself is near zero.", "quantifier": "all finite positive float and double values, all three bases, all SIMD builds", "why_tests_cant": "there are more than 2^30 float and 2^62 double arguments; a test compares samples with another library, not with the real function, and usually with an absolute error near 1", "anchors": ["Vc/common/logarithm.h: LogImpl, log_series", "Vc/common/logarithm.h: log, log2, log10", "src/const.cpp: c_log", "Vc/sse/vector.tcc: Detail::exponent"]}
{"id": "C80", "title": "Accuracy of atan", "statement": "For every finite float or double entry the entry of atan(x) is finite and its error against the real arc tangent is at most 2^-21 of the arc tangent plus the smallest positive number for float, and at most 2^-50 of the arc tangent plus the smallest positive number for double.", "quantifier": "all finite float and double values, all SIMD builds", "why_tests_cant": "there are more than 2^31 float and 2^63 double arguments; a test compares samples with another library, not with the real function", "anchors": ["src/trigonometric.cpp: atan", "src/const.cpp: c_trig"]}
{"id": "C81", "title": "Accuracy of atan2", "statement": "For every two finite float or double entries y, x that are not both zero the entry of atan2(y, x) is finite and differs from the angle of the point (x, y), with the side chosen by the sign of y, by at most 2^-20 of the angle plus two smallest positive numbers for float and 2^-49 of the angle plus two smallest positive numbers for double, also when the quotient y / x overflows or underflows.", "quantifier": "all pairs of finite float and double values that are not both zero, all SIMD builds", "why_tests_cant": "there are more than 2^62 pairs of floats and 2^126 pairs of doubles; the quotient overflows, underflows or is rounded in ways that samples do not reach", "anchors": ["src/trigonometric.cpp: atan2", "src/trigonometric.cpp: atan", "src/const.cpp: c_trig"]}
{"id": "C82", "title": "Accuracy of asin", "statement": "For every float or double entry x between -1 and 1 the entry of asin(x) is finite and its error against the real arc sine is at most 2^-20 of the arc sine for float and at most 2^-49 of the arc sine for double.", "quantifier": "all float and double values in [-1, 1], all SIMD builds", "why_tests_cant": "there are more than 2^30 float and 2^62 double arguments in the interval; a test compares samples with another library, not with the real function", "anchors": ["src/trigonometric.cpp: asin", "src/const.cpp: c_trig"]}
{"id": "C83", "title": "Floating-point programs give the same results in every build", "statement": "A program written with the operations of SimdArray<float, N> or SimdArray<double, N> and its masks (generate, + - * /, min, max, unary -, abs, sqrt, copysign, comparisons, isnan, isinf, isfinite, isnegative, mask logic, write-masked assignment, rotated, reversed, shifted with and without a second vector, interleave, sorted(), min(), max(), sum(), product(), sum(mask), product(mask), partialSum(), entry access, loads, stores, gathers and scatters with and without a mask, mask queries), with any other code between the calls, gives bit for bit the same results whether it is compiled for Scalar, SSE or AVX, provided each operation has a result that IEEE-754 determines: not > or >= with a NaN, not an operation on two NaNs, not the minimum or maximum with a NaN or of 0.0 and -0.0, product() and product(mask) only of integers whose products are exact, sum(), sum(mask) and partialSum() only where no sum of some of the entries is rounded, and the last two not with -0.0.", "quantifier": "all programs (with branches and loops), all builds, float and double, all sizes N, memories and initial states for which the entry by entry meaning is defined", "why_tests_cant": "programs, inputs and sizes are unbounded, and a test runs one build", "anchors": ["Vc/common/simdarray.h: SimdArray, SimdArray::min, SimdArray::max", "Vc/common/operators.h", "Vc/scalar/operators.h", "Vc/scalar/math.h: min, max", "Vc/sse/detail.h: add, sub, mul, div, negate", "Vc/avx/detail.h: add, sub, mul, div, negate", "Vc/avx/math.h: min, max"]}
{"id": "C84", "title": "sqrt, rsqrt and reciprocal", "statement": "sqrt of every entry of a float or double SimdArray of every size, in every build, is the square root of IEEE-754 (the nearest representable value; NaN for negative values; +-0 and +infinity are returned), and the same bit pattern in every build and at every position. reciprocal and rsqrt of doubles, and of floats in the Scalar build, are the nearest value to 1/x, and 1/sqrt(x) within 2^-51 (doubles) or 2^-22 (floats); of floats in the SSE and AVX builds they are within 1.5 * 2^-12 for normal arguments (reciprocal: up to 2^125). The results for zero, infinities, NaN and negative arguments are those of IEEE-754. The results for equal entries are equal.", "quantifier": "all float and double entries, all sizes, all builds, all processors whose rcpps and rsqrtps do what the processor manuals promise", "why_tests_cant": "there are 2^64 doubles, the approximations differ between processors, and the bounds are about real numbers", "anchors": ["Vc/scalar/math.h: sqrt, rsqrt, reciprocal", "Vc/sse/vectorhelper.h: sqrt, rsqrt, reciprocal", "Vc/sse/vector.h: sqrt, rsqrt, reciprocal", "Vc/avx/vectorhelper.h: sqrt, rsqrt, reciprocal", "Vc/avx/math.h: sqrt, rsqrt, reciprocal", "Vc/common/simdarray.h: sqrt, rsqrt, reciprocal"]}
{"id": "C85", "title": "Objects created with new are aligned", "statement": "new of a class derived from VectorAlignedBase or MemoryAlignedBase gives an address that is suitable for every Vector<T>, in every implementation, with storage for the object; so does Vc::malloc with AlignOnVector. new SimdArray<T, N> and new SimdMaskArray<T, N> give an address that is a multiple of the alignof of the array type, with storage for the object. new[] of SimdMaskArray<T, N> does so for every element.", "quantifier": "all implementations, entry types, sizes N, alignment limits of compilers, and all C libraries whose posix_memalign meets its description", "why_tests_cant": "the allocator may return any suitably aligned address and in a test often returns one that is aligned better than requested; N is unbounded", "anchors": ["Vc/common/alignedbase.h: AlignedBase, VectorAlignedBase, MemoryAlignedBase, Detail::max", "Vc/common/macros.h: Vc_FREE_STORE_OPERATORS_ALIGNED", "Vc/common/simdarray.h: SimdArray (operator new, alignas)", "Vc/common/malloc.h: aligned_malloc", "Vc/common/simdmaskarray.h: SimdMaskArray (operator new, alignas)"]}
{"id": "C86", "title": "Version comparison and the check of the library", "statement": "Vc_VERSION_NUMBER compared with Vc_VERSION_CHECK(major, minor, patch) orders versions as one expects, with development versions between their release and the next. A program that was linked with a library of another binary interface, or with a library older than the headers it was compiled with, is aborted before main(); all others run.", "quantifier": "all versions of headers and library whose minor number is below 256 and whose patch number is below 128, all interface numbers", "why_tests_cant": "a test sees one version of headers and library; the claim is about all pairs, future ones included", "anchors": ["Vc/version.h: Vc_VERSION_NUMBER, Vc_VERSION_CHECK, runLibraryAbiCheck", "src/const.cpp: checkLibraryAbi"]}
