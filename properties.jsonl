{"id": "C01", "title": "Parsing is total", "statement": "HallSymbolNotation::try_from_str terminates on every input string and returns Ok or Err; no unwrap inside the parser can panic.", "quantifier": "every string, of any length and content", "why_tests_cant": "An endless loop or a panic may be hidden behind one unlucky character sequence; the set of strings is infinite.", "anchors": ["src/hall_symbols/parser.rs:parse_hall_symbol", "src/hall_symbols/matrix_symbol/parser.rs:parse_hall_matrix_symbol", "src/hall_symbols/origin_shift/parser.rs:parse_origin_shift"]}
{"id": "C02", "title": "Exact acceptance condition", "statement": "try_from_str(s) is Ok exactly when s is an optional '-' followed by one of P A B C I R F and the text left after the matrix symbols is not a complete parenthesised list of only one or two integers; everything else (trailing garbage, malformed or four-number shifts, unknown letters) is accepted and ignored.", "quantifier": "every string", "why_tests_cant": "Needs both directions over all strings.", "anchors": ["src/hall_symbols/parser.rs:parse_hall_symbol", "src/hall_symbols/origin_shift/parser.rs:parse_origin_shift", "src/hall_symbols/lattice_symbol/parser.rs"]}
{"id": "C03", "title": "Well-formed Hall symbols are read back component by component", "statement": "For every lattice symbol, every list of matrix symbols (sign, fold, axis or diagonal mark, screw subscript, translation letters) and every origin shift, parsing the text written in Hall's notation gives exactly these components, with only Hall's default-direction rules applied on top.", "quantifier": "every abstract Hall symbol: any number of matrix symbols and translation letters, any shift in i32", "why_tests_cant": "Unbounded number of symbols and letters; unit tests sample a few.", "anchors": ["src/hall_symbols/parser.rs", "src/hall_symbols/matrix_symbol/parser.rs", "src/hall_symbols/origin_shift/parser.rs"]}
{"id": "C04", "title": "Default axis rules", "statement": "After parsing, an omitted axis is filled in by Hall's rules: first symbol c; second two-fold a after 2 or 4, a-b after 3 or 6; third three-fold a+b+c; all other symbols are left as written. Exactly characterised for every symbol sequence, including the cases where an explicitly written axis of the second two-fold is overwritten (P 2 2y is read as P 2 2x).", "quantifier": "every sequence of matrix symbols", "why_tests_cant": "Rules depend on position and on the neighbour; infinite sequences.", "anchors": ["src/hall_symbols/parser.rs:restore_information_in_matrix_symbols"]}
{"id": "C05", "title": "Display/parse round trip", "statement": "Re-parsing the Display text of a parsed symbol always succeeds and keeps the lattice symbol, the origin shift and every sign, fold, subscript and letter; it gives exactly the same value unless some symbol carries both an x/y axis and a diagonal mark or the third symbol is a three-fold with axis c (then the direction really changes), and the same operations if the only such symbols are body-diagonal three-folds without subscript.", "quantifier": "every string the parser accepts", "why_tests_cant": "Text forms are unbounded; printing drops and re-adds defaults.", "anchors": ["src/hall_symbols/mod.rs:Display for HallSymbolNotation", "src/hall_symbols/matrix_symbol/mod.rs:Display for MatrixSymbol", "src/hall_symbols/parser.rs"]}
{"id": "C06", "title": "Matrix of a symbol has the advertised order and handedness", "statement": "Whenever a matrix symbol N yields a Seitz matrix, its rotation part to the power N is the identity (and no smaller power) when there is no minus sign, and the negative of such a matrix when there is one; the determinant is +1 or -1 accordingly, the last row is 0 0 0 1, and rotation_type returns the matching type.", "quantifier": "every matrix symbol (all folds, diagonals, axes, subscripts, any translation letters)", "why_tests_cant": "All combinations including any list of translation letters.", "anchors": ["src/hall_symbols/matrix_symbol/matrices/rotation_matrices.rs", "src/hall_symbols/matrix_symbol/matrices/mod.rs:seitz_matrix"]}
{"id": "C07", "title": "Screw translations", "statement": "A subscript M on an N-fold symbol (N=3,4,6) puts 12*M/N into the translation component of the axis and nothing elsewhere; the rejected combinations are exactly those with M>=N, the valid screws 4_2 and 6_3, and symbols without an axis; on 1- and 2-folds the subscript is silently ignored, so 2_1 is wrong.", "quantifier": "every fold, subscript, axis", "why_tests_cant": "Full case table must agree with the arithmetic rule.", "anchors": ["src/hall_symbols/matrix_symbol/matrices/rotation_matrices.rs:set_transform"]}
{"id": "C08", "title": "Translation letters add up modulo the cell", "statement": "The translation letters of a matrix symbol add, on top of the screw translation, the sum of their vectors reduced modulo 12 to 0..11 in each component; hence the order of the letters is irrelevant, and letters are never a reason for rejection. (The total of screw and letters is not reduced.)", "quantifier": "every list of translation letters", "why_tests_cant": "Unbounded lists and permutations.", "anchors": ["src/hall_symbols/matrix_symbol/matrices/rotation_matrices.rs:set_translation_from_symbols", "src/hall_symbols/translation_symbol.rs"]}
{"id": "C09", "title": "Origin shift conjugates an operation", "statement": "Shifting leaves the rotation part alone and turns translation t into t + v - R v modulo 12; it commutes with products, shifts compose by addition, and shift 0 changes nothing up to equality.", "quantifier": "every shift and every affine Seitz matrix", "why_tests_cant": "Infinite families of matrices and vectors.", "anchors": ["src/hall_symbols/origin_shift/mod.rs:shifted_matrix"]}
{"id": "C10", "title": "Origin shift normalisation", "statement": "OriginShift::new keeps each component modulo 12, is idempotent, and produces values in -11..23; the documented open interval (-12,12) is missed exactly by inputs >= 12 and by negative multiples of 12.", "quantifier": "every triple of i32", "why_tests_cant": "2^96 inputs.", "anchors": ["src/hall_symbols/origin_shift/mod.rs:OriginShift::new"]}
{"id": "C11", "title": "Origin shift moves the whole group", "statement": "For symbols without leading '-', the positions with shift v are the positions without shift conjugated by v (as sets modulo whole cells when the group has no translations beyond the centring ones, modulo the translations of the group otherwise). With a leading '-' the inversion is left unshifted, so this fails in general: the group moves along exactly when twice the shift is a translation of both the shifted and the unshifted group - for groups without translations beyond the centring ones, exactly when twice the shift is a centring translation, and then the positions move too.", "quantifier": "every symbol and shift", "why_tests_cant": "Quantifies over all generators and shifts.", "anchors": ["src/hall_symbols/mod.rs:generate_positions", "src/hall_symbols/origin_shift/mod.rs"]}
{"id": "C12", "title": "Product is composition", "statement": "The product of two Seitz matrices acts on every point as applying the second then the first, modulo cell translations; it is associative with identity as unit up to ==, and its translation components lie strictly between -12 and 12.", "quantifier": "all affine Seitz matrices and all points", "why_tests_cant": "Infinite domain.", "anchors": ["src/hall_symbols/matrix_symbol/matrices/seitz_mat_impl.rs:Mul for SeitzMatrix"]}
{"id": "C13", "title": "Equality means same action", "statement": "a == b exactly when a and b move every rational point to points differing by whole cells; == is an equivalence relation and a congruence for products and lattice additions.", "quantifier": "all affine Seitz matrices, all rational points", "why_tests_cant": "Infinite domain on both sides.", "anchors": ["src/hall_symbols/matrix_symbol/matrices/seitz_mat_impl.rs:PartialEq for SeitzMatrix"]}
{"id": "C14", "title": "Hash and order agree with equality", "statement": "Exact characterisation: equal matrices hash alike (and compare Equal) only when their translations are identical integers; so the Hash/Eq and PartialOrd/PartialEq contracts are violated for every pair of equal matrices with different translation representatives.", "quantifier": "all pairs of Seitz matrices", "why_tests_cant": "A contract over all pairs.", "anchors": ["src/hall_symbols/matrix_symbol/matrices/seitz_mat_impl.rs:Hash for SeitzMatrix", "src/hall_symbols/matrix_symbol/matrices/mod.rs:SeitzMatrix derive(PartialOrd)"]}
{"id": "C15", "title": "Non-negative powers", "statement": "powi(n) for n >= 0 equals the n-fold product up to ==, powi(0) is the identity, powi(a+b) == powi(a)*powi(b), and powi(a*b) == powi(a).powi(b).", "quantifier": "every affine Seitz matrix and all exponents", "why_tests_cant": "Unbounded exponents.", "anchors": ["src/hall_symbols/matrix_symbol/matrices/seitz_mat_impl.rs:powi"]}
{"id": "C16", "title": "Inverse and negative powers", "statement": "try_inverse returns an operation that composes with the argument to the identity, on both sides: for every signed permutation with any i32 translation, for every unimodular rotation part with entries up to 100 and translations in quarters of a cell (up to 1000 quarters), and for every operation of all 530 tabulated groups and the 230 default rows. For every unimodular rotation part with entries up to 32, with any i32 translation for which the exact inverse is in i32, and for hexagonal rotations with translations up to 2^29, the rotation part is exact and each translation component is at most one twelfth off (the third exact for hexagonal ones); some hexagonal operations with other twelfths are off by one because the f64 result is truncated. For hexagonal rotations with translations in 0..12 twelfths the inverse is exact if and only if the rotation part is a signed permutation or the first two translation components are not one of a listed set of pairs. It returns nothing for singular rotation parts (quarter translations). Negative powers invert the positive ones whenever the inverse is exact, and panic exactly when there is no inverse.", "quantifier": "all operations of the stated families, every exponent", "why_tests_cant": "Floating-point truncation is only visible on particular inputs.", "anchors": ["src/hall_symbols/matrix_symbol/matrices/seitz_mat_impl.rs:try_inverse", "src/hall_symbols/matrix_symbol/matrices/seitz_mat_impl.rs:powi"]}
{"id": "C17", "title": "rotation_type and the crystallographic restriction", "statement": "Every integer rotation part of finite order (entries up to 65536) is classified without error: the type's number N and handedness are such that the proper part has order exactly N; so only orders 1,2,3,4,6 occur.", "quantifier": "every finite-order integer matrix", "why_tests_cant": "Infinite family of integer matrices in arbitrary bases.", "anchors": ["src/hall_symbols/matrix_symbol/matrices/seitz_mat_impl.rs:rotation_type"]}
{"id": "C18", "title": "Determinant computed in f64 is exact", "statement": "For integer rotation parts with entries up to 65536 in size, the f64 determinant cast to i32 equals the integer determinant whenever it fits i32.", "quantifier": "all such matrices", "why_tests_cant": "(131073)^9 matrices.", "anchors": ["src/hall_symbols/matrix_symbol/matrices/seitz_mat_impl.rs:det"]}
{"id": "C19", "title": "Eigenvector is a canonical axis", "statement": "When eigenvector() returns v, then R v = det(R) v, v is non-zero with entries in -1,0,1 and its last non-zero component is positive; it panics exactly when no such axis with entries -1,0,1 exists, which happens for operations of tabulated space groups (e.g. x,x-y,-z of P 6 2), so printing those panics.", "quantifier": "every Seitz matrix", "why_tests_cant": "Panic condition over all matrices.", "anchors": ["src/hall_symbols/matrix_symbol/matrices/seitz_mat_impl.rs:eigenvector"]}
{"id": "C20", "title": "Ordering of rotation types", "statement": "cmp returns Equal exactly on identical types and puts E first; but it is not antisymmetric (e.g. 3 < 4 and 4 < 3), so it is not a total order. All violating pairs are characterised.", "quantifier": "all pairs and triples of rotation types", "why_tests_cant": "Contract for all pairs/triples.", "anchors": ["src/hall_symbols/matrix_symbol/notations/mod.rs:Ord for RotationType"]}
{"id": "C21", "title": "Positive modulus", "statement": "positive_mod returns the residue in 0..11 congruent to the input, except on negative multiples of 12 where it returns 12. The floating-point version of the crate (private, unused) gives exactly the same value on whole numbers below 2^53, and NaN on NaN and the infinities.", "quantifier": "every i32; every whole number below 2^53 for the floating-point version", "why_tests_cant": "2^32 inputs.", "anchors": ["src/utils/mod.rs:positive_mod_stbn_i32", "src/utils/mod.rs: positive_mod_stbn_f64"]}
{"id": "C22", "title": "Jones-faithful text is faithful", "statement": "Reading the text of jones_faithful_repr back gives the same operation up to ==, for every rotation part with entries -1,0,1 and every translation; hence different operations never print the same text. For arbitrary integer entries the text exists unless the product of some entry with the character code of its letter is, up to sign, not a Unicode scalar value; then, and only then, the call panics.", "quantifier": "all rotation parts with entries in -1..1 (any rows), all integer translations", "why_tests_cant": "Unbounded translations; injectivity over all pairs.", "anchors": ["src/hall_symbols/matrix_symbol/matrices/seitz_mat_impl.rs:jones_faithful_repr", "src/hall_symbols/matrix_symbol/matrices/seitz_mat_impl.rs:rotation_jf_repr"]}
{"id": "C23", "title": "Jones rotation text identifies the rotation", "statement": "jones_faithful_repr_rot is injective on rotation parts with entries -1,0,1; the three ordering tables list each text once and consist exactly of the 48 cubic, 24 hexagonal and 12 rhombohedral rotations, which are closed under multiplication.", "quantifier": "all pairs of such matrices", "why_tests_cant": "All pairs.", "anchors": ["src/hall_symbols/matrix_symbol/matrices/seitz_mat_impl.rs:jones_faithful_repr_rot", "src/database/sym_ops_order.rs"]}
{"id": "C24", "title": "Lattice centring vectors form a group", "statement": "For every lattice letter the centring vectors contain 0, are pairwise different in 0..11, closed under addition and negation modulo the cell, and num_of_translations counts them. The generators handed to the generation are as many as num_generators says.", "quantifier": "every lattice letter", "why_tests_cant": "Finite but must hold for all pairs.", "anchors": ["src/hall_symbols/lattice_symbol/mod.rs"]}
{"id": "C25", "title": "Generated positions are sound", "statement": "Every position returned by general_positions is a product of the symbol's generators modulo cell and centring translations.", "quantifier": "every Hall symbol for which a result is returned", "why_tests_cant": "All symbols, generators and shifts.", "anchors": ["src/hall_symbols/mod.rs:generate_positions", "src/hall_symbols/mod.rs:add_to_list"]}
{"id": "C26", "title": "Generated positions are complete", "statement": "If the generated group contains no pure translations beyond the centring ones, the full sets contain exactly the group generated by the symbol; the point group (rotation parts) is complete without any condition; without the condition operations may be lost (P 4a 4b).", "quantifier": "every Hall symbol for which a result is returned", "why_tests_cant": "Needs closure of arbitrary generator sets.", "anchors": ["src/hall_symbols/mod.rs:generate_positions", "src/hall_symbols/mod.rs:add_to_list"]}
{"id": "C27", "title": "No duplicates", "statement": "No two returned positions are equal modulo cell and centring translations.", "quantifier": "every Hall symbol for which a result is returned", "why_tests_cant": "All pairs in all results.", "anchors": ["src/hall_symbols/mod.rs:add_to_list"]}
{"id": "C28", "title": "Translations are normalised and the identity comes first", "statement": "Every returned position has last row 0 0 0 1 and translation components in 0..11, and the first position is the identity.", "quantifier": "every Hall symbol for which a result is returned", "why_tests_cant": "All results.", "anchors": ["src/hall_symbols/mod.rs:translation_minimal_repr", "src/hall_symbols/mod.rs:sort_general_positions"]}
{"id": "C29", "title": "Termination of general_positions", "statement": "For valid symbols that fit the buffer, general_positions terminates exactly when the rotation parts of the generators generate a finite group; for parsed symbols this is when all are cubic-type or all hexagonal-type about one axis; e.g. P 4 3 never terminates (with exact integers; for machine integers see C45). Invalid symbols, and with overflow checks oversized ones, panic; the result does not depend on the step budget of the model.", "quantifier": "every Hall symbol", "why_tests_cant": "Non-termination cannot be observed by a test, termination only sampled.", "anchors": ["src/hall_symbols/mod.rs:generate_positions"]}
{"id": "C30", "title": "Sorting", "statement": "The positions returned are a stable reordering of those generated, in the order of the table chosen from the first symbol; the sort panics exactly when there are at least two positions and one is missing in the table.", "quantifier": "every list of positions", "why_tests_cant": "All lists.", "anchors": ["src/hall_symbols/mod.rs:sort_general_positions", "src/hall_symbols/mod.rs:get_matrice_order"]}
{"id": "C31", "title": "All 530 tabulated settings give their crystal class", "statement": "For every enum variant, conversion does not panic, general_positions returns (within 10 rounds of its loop), the full sets are closed under product and inverse, and the numbers of operations of each kind (1 2 3 4 6 -1 m -3 -4 -6) are those of the crystal class to which International Tables assign the row's space-group number; hence their count is the order of that class.", "quantifier": "all 530 variants and all pairs of their operations", "why_tests_cant": "Group law over all pairs for all settings.", "anchors": ["src/database/mod.rs:SpaceGroupHallSymbol", "src/hall_symbols/mod.rs", "src/database/space_group_table.rs"]}
{"id": "C32", "title": "All 230 default symbols give their crystal class", "statement": "The same for each of the 230 rows of the default table.", "quantifier": "all 230 rows and all pairs of their operations", "why_tests_cant": "As C31.", "anchors": ["src/database/space_group_table.rs:DEFAULT_HALL_NAME", "src/hall_symbols/mod.rs"]}
{"id": "C33", "title": "derive_full_sets", "statement": "There is one set per centring vector, each with as many operations as the core set, the k-th operation of each set being the core operation followed by that centring translation; for generated positions all operations of all sets are pairwise different modulo the cell.", "quantifier": "every GeneralPositions value / every symbol with a result", "why_tests_cant": "All values.", "anchors": ["src/hall_symbols/general_positions.rs:derive_full_sets"]}
{"id": "C34", "title": "Full sets form a group", "statement": "If the condition of C26 holds, the union of the full sets is closed under product and inverse modulo the cell.", "quantifier": "every such symbol", "why_tests_cant": "All pairs.", "anchors": ["src/hall_symbols/general_positions.rs:derive_full_sets", "src/hall_symbols/mod.rs"]}
{"id": "C35", "title": "Text listing numbers every operation once", "statement": "text_format writes one heading per centring vector and then lines numbered consecutively 1..N over all sets; pure_txt has N entries, the Jones text of the operations in that order.", "quantifier": "every GeneralPositions value", "why_tests_cant": "Any sizes.", "anchors": ["src/hall_symbols/general_positions.rs:text_format", "src/hall_symbols/general_positions.rs:pure_txt"]}
{"id": "C36", "title": "Leading minus gives a centrosymmetric set", "statement": "For symbols with leading '-', for every returned operation the set of rotation parts contains its negative; and under the condition of C26 the operation composed with inversion is in the full sets.", "quantifier": "every such symbol", "why_tests_cant": "All results.", "anchors": ["src/hall_symbols/lattice_symbol/mod.rs:seitz_matrices", "src/hall_symbols/mod.rs"]}
{"id": "C37", "title": "Index lookups", "statement": "Lookup by index returns a row exactly for indices below the table size (530 or 230), and the number, Hermann-Mauguin and Hall texts returned for one index are those of one and the same row; the getters of a SpaceGroupHallSymbol return the row of the full table with its discriminant.", "quantifier": "every index (usize)", "why_tests_cant": "All indices.", "anchors": ["src/database/space_group_table.rs:LookUpSpaceGroup"]}
{"id": "C38", "title": "Lookup by name returns the first matching row", "statement": "Lookup by HM or Hall text returns the number of the first row with that text and None exactly when the text is absent.", "quantifier": "every string", "why_tests_cant": "All strings.", "anchors": ["src/database/space_group_table.rs:LookUpSpaceGroup"]}
{"id": "C39", "title": "HM round trip", "statement": "In the full table, looking up the HM text of row i gives the number of row i for every i; in the default table this fails for truncated names, characterised exactly.", "quantifier": "all rows", "why_tests_cant": "All rows.", "anchors": ["src/database/space_group_table.rs"]}
{"id": "C40", "title": "Hall round trip", "statement": "In the full table, looking up the Hall text of row i gives the number of row i except for exactly three rows of space group 68 whose text is duplicated; in the default table it holds for all rows.", "quantifier": "all rows", "why_tests_cant": "All rows.", "anchors": ["src/database/space_group_table.rs"]}
{"id": "C41", "title": "Number column", "statement": "Row i of the default table is space group i+1; the full table's numbers are non-decreasing and cover 1..230, each label occurring once.", "quantifier": "all rows", "why_tests_cant": "All rows.", "anchors": ["src/database/space_group_table.rs"]}
{"id": "C42", "title": "Default and full table agree", "statement": "The default row's operations are those of the full-table row with the same label, except for exactly 25 rows (labels ':1' carrying the choice-2 symbol, and number 24).", "quantifier": "all 230 rows", "why_tests_cant": "Comparison of whole groups.", "anchors": ["src/database/space_group_table.rs"]}
{"id": "C43", "title": "Rows of different space-group number are different groups", "statement": "Refuted: rows of different space-group number need not be different groups. The full-table row of number 24 (I 21 21 21, text I 2ac 2bc) denotes exactly the group of row 23 (I 2 2 2) moved by the origin shift (0 1/4 1/4). (C57-C59 give the complete classification.)", "quantifier": "pairs of rows", "why_tests_cant": "Equality of infinite groups up to origin shift.", "anchors": ["src/database/space_group_table.rs:HALL_NAME"]}
{"id": "C44", "title": "Enum names match table rows", "statement": "The name of every enum variant is its table row's Hall symbol spelt as an identifier (blank _, minus M, double quote D, asterisk A, parentheses dropped), except exactly ten variants: six duplicates of space group 68 that carry a _1/_2 suffix, and four (positions 123, 190, 202, 211) whose name spells a Hall symbol that is in no row of the table; all names are different.", "quantifier": "all 530 variants", "why_tests_cant": "All variants.", "anchors": ["src/database/mod.rs", "src/database/space_group_table.rs"]}
{"id": "C45", "title": "No integer overflow while generating", "statement": "For every accepted text of at most 357913941 characters whose symbols are valid, can be combined (see C29) and fit the buffer, generating the positions, deriving the full sets and listing them gives the exact result in debug and in release builds: no i32 or usize computation overflows. Whatever the symbol, a debug build either panics with an overflow or returns the exact result, and with machine integers the generation always ends (for symbols that cannot be combined, a debug build ends in an overflow panic). The bound on the length is sharp, and beyond the buffer limit a release build can return where a debug build panics. Adding, subtracting and classifying operations and finding their axes are also exact or panic in a debug build, and exact in both builds below stated bounds; in a release build an axis of an operation with large entries can be wrong. The printed listings (text_format and Display) of generated positions are exact in both builds, and for any value a debug build prints the exact text or panics. powi(i32::MIN) panics in both builds for every operation.", "quantifier": "every accepted text, both build profiles, every step budget", "why_tests_cant": "Ranges over all texts and all intermediate values of the generation.", "anchors": ["src/hall_symbols/mod.rs: generate_positions, max_equiv_pos, add_to_list", "src/hall_symbols/matrix_symbol/matrices/seitz_mat_impl.rs: Mul, Add, powi, PartialEq", "src/hall_symbols/matrix_symbol/matrices/rotation_matrices.rs: set_translation_from_symbols", "src/hall_symbols/origin_shift/mod.rs: shifted_matrix"]}
{"id": "C46", "title": "Representative choice", "statement": "translation_minimal_repr returns a representative of the same coset modulo centring translations, never of larger norm than the reduced input; it is neither always minimal nor unique per coset. It is the shortest among the candidates with no more zero components than itself, and has no more of them than the reduced input.", "quantifier": "every lattice letter and integer vector", "why_tests_cant": "All vectors.", "anchors": ["src/hall_symbols/mod.rs:translation_minimal_repr"]}
{"id": "C47", "title": "Builder and setters", "statement": "MatrixSymbolBuilder::build fails exactly when no fold was set, and otherwise returns the last values set with defaults elsewhere, whatever the order and number of setter calls. The setters of a finished matrix symbol likewise leave the value given last in every field; giving the other sign negates the rotation part of its operation and keeps the translation; setting all fields makes the symbol the builder makes of the same values.", "quantifier": "every sequence of setter calls on every builder and symbol", "why_tests_cant": "All call sequences.", "anchors": ["src/hall_symbols/matrix_symbol/builder.rs", "src/hall_symbols/matrix_symbol/mod.rs: MatrixSymbol::set_minus_sign, set_nfold_body, set_nfold_sub, set_nfold_diag, set_rotation_axis"]}
{"id": "C48", "title": "Different rows denote different groups", "statement": "Two different rows of the full table denote the same set of operations (modulo whole cells) exactly when they are one of three pairs of rows of space group 68 that carry the same text; no other two of the 530 settings coincide.", "quantifier": "all pairs of rows of the full table, all operations of the (infinite) groups", "why_tests_cant": "compares infinite operation sets for 140185 pairs of rows; needs a proof that generated lists represent the whole group", "anchors": ["src/database/space_group_table.rs", "src/database/mod.rs: SpaceGroupHallSymbol", "src/hall_symbols/mod.rs: general_positions"]}
{"id": "C49", "title": "Printed form of operations and positions", "statement": "Printing an operation shows, in this order, its coordinate text, its axis and a box of sixteen cells holding exactly its entries (translations as fractions of a cell in lowest terms, not reduced modulo whole cells), in lines of equal width; two operations with the same printed form are identical. For rotations with entries -1, 0, 1 printing succeeds exactly when the rotation has an axis with entries -1, 0, 1, and panics otherwise. Printing general positions gives every set's heading followed by all its operations in order, and succeeds exactly when every operation of every set can be printed; for the tabulated groups exactly when the group number is not 149, 151, 153, 157, 159, 162, 163 or 177-194. The error value for a non-rotation shows all sixteen entries.", "quantifier": "all operations (any integer entries, any last row), all general positions, all 530 rows", "why_tests_cant": "Ranges over all matrices; injectivity of a printed form and the exact panic condition are universally quantified.", "anchors": ["src/hall_symbols/matrix_symbol/matrices/seitz_mat_impl.rs: Display, to_fraction", "src/hall_symbols/matrix_symbol/matrices/mod.rs: SeitzMatrixError", "src/hall_symbols/general_positions.rs: Display"]}
{"id": "C50", "title": "Equality and ordering of notations", "statement": "Comparing two Hall symbol notations never gives an undefined result and is a total order; comparing Equal, == and being field-by-field identical are the same thing. The lattice symbol decides first (minus sign, then P A B C I R F), then the matrix symbols lexicographically (a prefix comes first), then the origin shift coordinate by coordinate. A matrix symbol is compared by minus sign, then fold (1 2 3 4 6), subscript (none, 1..5), diagonal mark (none, ', \", *), axis (omitted, x, y, z) and finally its letters (none first, then lexicographically in the order a b c n u v w d). Two accepted notations without lossy symbols (C05) that print the same text are equal; in general equal texts do not imply equal notations.", "quantifier": "all notations (parsed or built), all texts", "why_tests_cant": "Order laws quantify over all pairs and triples of notations of any length.", "anchors": ["src/hall_symbols/mod.rs: HallSymbolNotation derive", "src/hall_symbols/matrix_symbol/mod.rs: MatrixSymbol derive", "src/hall_symbols/origin_shift/mod.rs: OriginShift derive"]}
{"id": "C51", "title": "Equality and ordering of general positions", "statement": "Two general positions are == exactly when they have the same centring vectors and, position by position, the same operation up to whole cells; they compare Equal exactly when identical, so in general the two notions disagree. For positions generated from symbols they agree: ==, comparing Equal and being identical coincide, and, for symbols without extra translations, == implies that the two symbols denote the same group (P 1 and P 1 1a have equal positions but different groups). Some generated positions are not comparable.", "quantifier": "all general positions; all pairs of symbols whose generation succeeds", "why_tests_cant": "All pairs of symbols and infinite groups.", "anchors": ["src/hall_symbols/general_positions.rs: GeneralPositions derive", "src/hall_symbols/matrix_symbol/matrices/seitz_mat_impl.rs: PartialEq"]}
{"id": "C52", "title": "Positions depend only on the group", "statement": "The order and repetition of the matrix symbols does not change the group. Two symbols that denote the same group (without extra translations) give the same number of general positions and, up to whole cells, the same operations in their full sets. The representatives listed may still differ, so == on positions does not decide equality of groups.", "quantifier": "all pairs of symbols whose generation succeeds", "why_tests_cant": "All pairs of symbols, all operations of infinite groups.", "anchors": ["src/hall_symbols/mod.rs: general_positions, translation_minimal_repr", "src/hall_symbols/general_positions.rs: derive_full_sets"]}
{"id": "C53", "title": "The floating-point form of an operation is accurate and loses nothing", "statement": "Converting an operation to its floating-point matrix keeps every entry of the rotation part and of the last row exactly; each translation component is t/12 up to one part in 2^53, and multiplying it by 12 in floating point gives the integer t back exactly. Hence two operations with the same floating-point form are the same operation. The translation is not always exact: a third of a cell is not a binary fraction.", "quantifier": "every 4x4 operation whose sixteen entries are 32-bit integers", "why_tests_cant": "The claim is about rounding for all 2^32 translations and every combination of sixteen entries.", "anchors": ["src/hall_symbols/matrix_symbol/matrices/seitz_mat_impl.rs: to_f64_mat"]}
{"id": "C54", "title": "Operations are ordered entry by entry", "statement": "Comparing two operations gives Less exactly when no entry of the first 4x4 matrix exceeds the same entry of the second and they differ, Greater in the opposite case, Equal exactly when all sixteen entries agree, and no result otherwise. So it is a partial order (antisymmetric, transitive) but not a total one, and it is not compatible with ==: every operation has an == one that is strictly greater.", "quantifier": "all pairs and triples of 4x4 integer matrices", "why_tests_cant": "Sixteen unbounded integers per operand.", "anchors": ["src/hall_symbols/matrix_symbol/matrices/mod.rs: derive(PartialOrd) on SeitzMatrix"]}
{"id": "C55", "title": "Sum, difference and translation of operations", "statement": "+ and - of two operations work entry by entry and undo each other; the result is never a proper operation (its corner is 2 or 0). Two operations are == exactly when their difference has zero rotation part and whole-cell translation. Adding a vector keeps rotation part and last row, moves the image of every point by that vector up to whole cells, leaves translations between -11 and 11, and successive vectors add up.", "quantifier": "all 4x4 integer matrices, all vectors, all rational points", "why_tests_cant": "Unbounded integers and all points of space.", "anchors": ["src/hall_symbols/matrix_symbol/matrices/seitz_mat_impl.rs: Add, Sub, Add<Vector3<i32>>"]}
{"id": "C56", "title": "Rotations up to sign and the proper part", "statement": "is_unique_rotation is false exactly when the rotation parts are equal or opposite; it is symmetric, false on equal arguments and ignores translations. For a rotation part of finite order, proper_rotation gives nothing exactly for the identity and the inversion and otherwise the proper part (the matrix or its negative), of determinant 1 and order 2, 3, 4 or 6.", "quantifier": "all pairs of operations; for the proper part all rotation parts of finite order with entries up to 65536", "why_tests_cant": "There are infinitely many integer matrices of finite order (all conjugates).", "anchors": ["src/hall_symbols/matrix_symbol/matrices/seitz_mat_impl.rs: is_unique_rotation, proper_rotation"]}
{"id": "C57", "title": "Every tabulated setting is of the space-group type its number names", "statement": "Two variants of the full table have groups of the same space-group type (related by an invertible, handedness-preserving affine change of coordinates with rational coefficients) exactly when their space-group numbers are equal, except that number 24 of the full table is of the type of number 23; against the default table, a variant is of the type of exactly one row, that of its own number (23 for 24).", "quantifier": "all pairs of the 530 variants, all variants against all 230 default rows, all operations of the infinite groups and all rational changes of coordinates", "why_tests_cant": "Existence or non-existence of a change of coordinates over an infinite set, between infinite groups.", "anchors": ["src/database/space_group_table.rs:HALL_NAME", "src/database/mod.rs:SpaceGroupHallSymbol", "src/hall_symbols/mod.rs:general_positions"]}
{"id": "C58", "title": "The 230 default rows are 230 different space-group types", "statement": "The groups denoted by two rows of the default table are of the same space-group type only when the rows are the same: no invertible handedness-preserving rational affine change of coordinates turns one into the other.", "quantifier": "all pairs of the 230 default rows and all rational affine changes of coordinates", "why_tests_cant": "Non-existence over infinitely many changes of coordinates.", "anchors": ["src/database/space_group_table.rs:DEFAULT_HALL_NAME", "src/hall_symbols/mod.rs:general_positions"]}
{"id": "C59", "title": "Mirror-image rows are exactly the eleven enantiomorphic pairs", "statement": "Allowing changes of coordinates that reverse handedness, two default rows become equal groups exactly when they are the same row or one of the eleven pairs 76/78, 91/95, 92/96, 144/145, 151/153, 152/154, 169/170, 171/172, 178/179, 180/181, 212/213.", "quantifier": "all pairs of the 230 default rows and all invertible rational affine changes of coordinates", "why_tests_cant": "Existence and non-existence over infinitely many changes of coordinates.", "anchors": ["src/database/space_group_table.rs:DEFAULT_HALL_NAME", "src/hall_symbols/mod.rs:general_positions"]}
{"id": "C60", "title": "What is listed beyond one operation per rotation", "statement": "In the list general_positions returns, an operation whose rotation part already occurred earlier in the list always has a fully fractional translation: none of its copies by a centring vector has a coordinate that is a whole number of cells. Conversely every generator of the symbol (centring vector, leading inversion, matrix symbol seen from the shifted origin) and every product of two listed operations is either listed up to a centring vector, or one of its centred copies has a whole coordinate. So for a symbol with extra translations such as P 1 1d all four translations are listed, while for P 1 1a the translation (1/2,0,0) of the group is not.", "quantifier": "every Hall notation, every pair of places in the returned list, every generator, every pair of listed operations", "why_tests_cant": "the rule speaks about all symbols, including those whose group has extra translations, and about every pair in lists produced by a fixed-point loop; tests compare a few lists", "anchors": ["src/hall_symbols/mod.rs: add_to_list", "src/hall_symbols/mod.rs: generate_positions"]}
{"id": "C61", "title": "Exact written form of an operation", "statement": "For every operation with matrix entries -1, 0, 1 and any translation, jones_faithful_repr is: three coordinates separated by commas without blanks; in each the occurring letters in the order x, y, z with their signs, a leading plus left out; then the translation reduced by whole cells towards zero, signed, as a fraction in lowest terms, left out when zero. jones_faithful_repr_rot is the same text without translations. For a lattice operation no coordinate is empty. Every operation that general_positions returns, for any symbol, has entries -1, 0, 1 and so is written this way.", "quantifier": "every operation with entries -1, 0, 1, every integer translation; every Hall notation and every returned position", "why_tests_cant": "27 rows times all translations, and all positions of all symbols; tests look at a few strings", "anchors": ["src/hall_symbols/matrix_symbol/matrices/seitz_mat_impl.rs: rotation_jf_repr, jones_faithful_repr, jones_faithful_repr_rot", "src/hall_symbols/mod.rs: sort_general_positions"]}
{"id": "C62", "title": "For exactly which symbols general_positions returns", "statement": "For every Hall notation, exactly one of three things happens. general_positions returns a list if and only if the notation has at least one matrix symbol, every matrix symbol denotes an operation, the generators fit the fixed buffer, and all matrix symbols belong to the family fixed by the first one: rotations about the hexagonal c axis after a 6-fold or an unmarked 3-fold, rhombohedral rotations (1, 3*, 2') after 3*, cubic rotations otherwise. It never ends if and only if every symbol denotes an operation, the generators fit and the rotations generate an infinite group. In every other case it panics.", "quantifier": "every Hall notation (every list of matrix symbols, lattice, shift)", "why_tests_cant": "the classification covers every sequence of symbols of any length; tests can only try some, and no test can observe that a call never ends", "anchors": ["src/hall_symbols/mod.rs: general_positions, generate_positions, sort_general_positions, get_matrice_order"]}
{"id": "C63", "title": "Operations keep distances, in exactly the right cells", "statement": "For every row of the full and the default table, every operation listed for its Hall symbol keeps all distances between points of the crystal if and only if the cell has the shape that International Tables prescribes for that setting: anything for triclinic, two right angles at the unique axis named in the label for monoclinic, three right angles for orthorhombic, and also a = b for tetragonal, a = b with gamma = 120 degrees for hexagonal axes, a = b = c with equal angles for rhombohedral axes, a cube for cubic. For every other Hall notation for which positions are returned, every listed operation keeps distances in the cells fixed by the first matrix symbol (hexagonal, rhombohedral or cubic).", "quantifier": "every row of both tables, every cell (six rational metric coefficients), every pair of rational points; every Hall notation that returns", "why_tests_cant": "all cells and all pairs of points are infinitely many; the converse (no other cell shape) cannot be sampled", "anchors": ["src/database/crystal_system.rs: CrystalSystem", "src/database/space_group_table.rs: FULL_SPACE_GROUP_SYMBOLS, DEFAULT_SPACE_GROUP_SYMBOLS", "src/hall_symbols/mod.rs: general_positions", "src/hall_symbols/general_positions.rs: derive_full_sets"]}
{"id": "C64", "title": "Orbits and multiplicities of points", "statement": "If a symbol has no extra translations (C26), then for every rational point the images under the listed operations are permuted among themselves (up to whole cells) by every listed operation; every image is produced by the same number of operations, at least one; and the number of different sites times this number is the number of centring vectors times num_of_general_pos. For every symbol at all, some point (explicitly 1/17, 1/289, 1/4913) is taken to a different site by each listed operation, so the list really gives positions of a general point.", "quantifier": "every Hall notation for which positions are returned, every point with rational coordinates, every pair of operations", "why_tests_cant": "infinitely many points and notations; the counting statement is about all of them at once", "anchors": ["src/hall_symbols/general_positions.rs: derive_full_sets, num_of_general_pos", "src/hall_symbols/mod.rs: general_positions"]}
{"id": "C65", "title": "More symbols, larger group; orders divide", "statement": "Adding matrix symbols anywhere in a Hall notation (or the leading minus) never loses an operation: the group of the longer notation contains the group of the shorter one. When the larger one has no extra translations, every operation listed for the smaller notation is listed (up to whole cells) for the larger one, and the number of operations of the smaller divides that of the larger; with the same lattice letter num_of_general_pos divides num_of_general_pos.", "quantifier": "every pair of Hall notations in the subgroup relation, of any length", "why_tests_cant": "ranges over all pairs of notations", "anchors": ["src/hall_symbols/mod.rs: general_positions, generate_positions", "src/hall_symbols/general_positions.rs: derive_full_sets, num_of_general_pos"]}
{"id": "C66", "title": "Powers of operations repeat", "statement": "If the N-th power of the rotation part of an operation is the identity, then powi(12 N) of the operation == identity. For every operation listed for any symbol, powi(144) == identity, powers with exponents equal modulo 144 are ==, and powi(143) is a two-sided inverse (also where try_inverse is off by a twelfth, C16); without extra translations the period divides 12 times the number of centring vectors.", "quantifier": "every operation with rotation part of finite order; every Hall notation that returns, every listed operation, all exponents", "why_tests_cant": "all exponents and all operations of all notations", "anchors": ["src/hall_symbols/matrix_symbol/matrices/seitz_mat_impl.rs: powi", "src/hall_symbols/mod.rs: general_positions"]}
{"id": "C67", "title": "Listings determine what they list", "statement": "Every symbol that returns has both listings. Two returned positions have the same text_format exactly when they are identical (so text_format can serve as a key), and the same pure_txt exactly when their listed operations are the same in the same order. pure_txt does not show how the operations are split into sets: I 1 and P 1 1n have the same pure_txt although the positions differ.", "quantifier": "every pair of Hall notations for which positions are returned", "why_tests_cant": "injectivity over all pairs of results cannot be sampled", "anchors": ["src/hall_symbols/general_positions.rs: text_format, pure_txt", "src/hall_symbols/matrix_symbol/matrices/seitz_mat_impl.rs: jones_faithful_repr"]}
{"id": "C68", "title": "The result is one of the 32 crystal classes", "statement": "For every symbol that returns, the distinct rotation parts of the positions have, kind by kind (as rotation_type reports them: 1, 2, 3, 4, 6 and the barred ones), the numbers of one of the 32 crystallographic point groups, and these numbers tell the 32 apart; each of the 32 occurs for a row of the shipped default table. Without extra translations there is one position per rotation part, so the number of positions is 1, 2, 3, 4, 6, 8, 12, 16, 24 or 48. All operations are proper exactly when no minus sign is written; otherwise exactly half of the rotation parts are improper.", "quantifier": "every Hall notation, of any length, for which positions are returned", "why_tests_cant": "the classification ranges over all notations, not the shipped ones", "anchors": ["src/hall_symbols/mod.rs: general_positions, generate_positions", "src/hall_symbols/matrix_symbol/matrices/seitz_mat_impl.rs: rotation_type"]}
{"id": "C69", "title": "Order of the positions", "statement": "Without extra translations the rotation parts of the positions are exactly those rotations of the order table chosen by the first symbol that occur in the group, in table order; so two notations of the same group with the same table list the same rotations in the same order, and with a P lattice their positions are identical. The three tables are fixed row by row (48 signed permutations of the axes, 24 rotations of the hexagonal axes, 12 of the rhombohedral axes, in the order written in src/database/sym_ops_order.rs). The choice of table matters: P 3* 2' and P 2' 3* are the same group listed in different orders. When the first symbol is 3-fold or 6-fold and the group contains the inversion rotation, the second half of the list is the first half with all rotation parts negated, in the same order; this is not so for -P 4.", "quantifier": "every Hall notation (pair of notations) for which positions are returned and without extra translations", "why_tests_cant": "the order is promised for all notations, including ones outside the tables", "anchors": ["src/hall_symbols/mod.rs: sort_general_positions", "src/database/sym_ops_order.rs: ORDER_12, ORDER_24, ORDER_48"]}
{"id": "C70", "title": "Recognising an incomplete result", "statement": "For every symbol that returns, the listed operations are (up to whole cells) the entire space group denoted by the symbol if and only if they are closed under multiplication and every operation written in the symbol is among them. Closure alone is not enough: the list for P 4a 4b is closed but the second symbol's own operation is missing; and A 4 returns a list that is not closed. The denoted group has no translations beyond the lattice if and only if the list is complete in this sense and no rotation part occurs twice among the positions.", "quantifier": "every Hall notation for which positions are returned", "why_tests_cant": "the group denoted by a symbol is infinite and the claim ranges over all notations", "anchors": ["src/hall_symbols/mod.rs: generate_positions, general_positions", "src/hall_symbols/general_positions.rs: derive_full_sets"]}
{"id": "C71", "title": "Screw and glide parts", "statement": "If the rotation part of an operation has n-th power the identity, then powi(n) is a pure translation, and the operation leaves some (rational) point fixed if and only if that translation is zero. For a position returned without extra translations, the order read off rotation_type is the true order of the rotation part, and powi with this order is, up to whole cells, a centring vector of the lattice: the screw or glide component is an n-th of a lattice vector. Shifting the origin leaves this translation unchanged.", "quantifier": "every operation of finite rotation order; every Hall notation for which positions are returned and every listed operation; every origin shift", "why_tests_cant": "ranges over all matrices, all notations and all rational points", "anchors": ["src/hall_symbols/matrix_symbol/matrices/seitz_mat_impl.rs: powi, rotation_type", "src/hall_symbols/mod.rs: general_positions"]}
{"id": "C72", "title": "rotation_type and eigenvector follow the geometry", "statement": "rotation_type gives the same answer for a product in either order; conjugating an operation by a change of basis keeps its type and carries its axis along; the inverse of a finite-order operation has the same type and the same reported eigenvector; negating the rotation part turns the type into the barred (or unbarred) one of the same order and keeps the eigenvector.", "quantifier": "every pair of matrices with entries below stated bounds (100, 10, 65536: where 32-bit arithmetic cannot overflow), every conjugating pair of matrices", "why_tests_cant": "ranges over all integer matrices in the range", "anchors": ["src/hall_symbols/matrix_symbol/matrices/seitz_mat_impl.rs: rotation_type, eigenvector, Mul"]}
{"id": "C73", "title": "Rotations and the lattice fit", "statement": "In the group denoted by a symbol every rotation part maps pure translations to pure translations. For every symbol that returns without extra translations, the rotation part of every listed operation permutes the centring vectors (modulo whole cells). Conversely if some written operation maps a centring vector to something that is not one, the denoted group has translations beyond the lattice (A 4 is such a symbol).", "quantifier": "every Hall notation for which positions are returned, every listed operation", "why_tests_cant": "ranges over all notations and an infinite group", "anchors": ["src/hall_symbols/mod.rs: general_positions", "src/hall_symbols/lattice_symbol/mod.rs: get_translations"]}
{"id": "C74", "title": "No dependence on the random hash seed", "statement": "The positions returned, their order, and whether the call panics or loops, do not depend on how the hash map and hash sets used during generation arrange their entries: for any implementation that answers look-ups according to the insertions made (in particular bucket tables with any hash functions and any number of buckets) the result is the same. So two runs of the same program, with different random seeds, agree.", "quantifier": "every lawful hash-table implementation (every seed, hash function and table width), every Hall notation, every fuel", "why_tests_cant": "the seed is random per process; only a proof covers all of them", "anchors": ["src/hall_symbols/mod.rs: add_to_list, generate_positions, general_positions"]}
{"id": "C75", "title": "Bounded running time", "statement": "Whenever positions are returned, the generation loop ran at most as many rounds as there are positions, and there are at most 48*(1+11*11*11) of them; without extra translations at most 48 rounds and 48 positions. If the loop has not ended after 48*(1+11*11*11) rounds it never ends.", "quantifier": "every Hall notation, of any length", "why_tests_cant": "a bound for all inputs, and non-termination cannot be observed by a test", "anchors": ["src/hall_symbols/mod.rs: generate_positions, add_to_list, general_positions"]}
{"id": "C76", "title": "Error and panic messages", "statement": "The Debug text of a matrix symbol determines the symbol (all six fields), and so do the Debug and Display texts of MatrixSymbolError. When general_positions is called on a notation with invalid symbols, the panic message is 'Invalid Seitz Matrix: Invalid(...)' with the Debug text of the first invalid symbol. Every other panic is: capacity overflow (only if the buffer does not fit), unwrap on None (only without symbols), or '<rotation> fails to match' naming a rotation of the denoted group that is missing in the order table; 'SeitzMatrix generation failed' never appears. The error of try_from_str carries no context exactly when the text does not start with an optional minus and a lattice letter, and the description 'Incorrect input: not `i32`' exactly when there is a bracket with fewer than three numbers.", "quantifier": "all matrix symbols, all Hall notations, all texts", "why_tests_cant": "injectivity and absence of a message over all inputs", "anchors": ["src/hall_symbols/matrix_symbol/mod.rs: MatrixSymbol, MatrixSymbolError", "src/hall_symbols/mod.rs: max_equiv_pos, generate_positions, sort_general_positions", "src/hall_symbols/origin_shift/parser.rs", "src/hall_symbols/lattice_symbol/parser.rs"]}
{"id": "C77", "title": "Site symmetry", "statement": "The listed operations that leave a point where it is (up to whole lattice translations) form a group modulo lattice translations: they contain the identity and are closed under product and inverse; no two have the same rotation part, so the site symmetry is one of the 32 crystal classes. Number of operations of the site symmetry times number of different images of the point = number of listed operations, and equivalent points have equally large site symmetry (conjugate by the operation that relates them).", "quantifier": "every notation whose group has no extra translations and that returns positions; every rational point", "why_tests_cant": "all symbols and all points", "anchors": ["src/hall_symbols/mod.rs: general_positions", "src/hall_symbols/general_positions.rs: derive_full_sets, num_of_general_pos", "src/hall_symbols/matrix_symbol/matrices/seitz_mat_impl.rs"]}
{"id": "C78", "title": "The textbook families of space-group types", "statement": "In both tables a row's positions contain an inversion iff its number is one of the 92 centrosymmetric types; contain proper rotations only iff it is one of the 65 Sohncke types; leave a direction invariant iff it is one of the 68 polar types; have a point with the full point group as site symmetry iff it is one of the 73 symmorphic types; have no special point at all iff it is one of the 13 fixed-point-free types. (Row 24 of the full table counts as type 23, see C57.)", "quantifier": "every row of both tables; for the last two every rational point", "why_tests_cant": "the last two quantify over all points of space (infinitely many); needs certificates of unsolvability", "anchors": ["src/database/space_group_table.rs", "src/hall_symbols/mod.rs: general_positions", "src/hall_symbols/general_positions.rs: derive_full_sets", "src/hall_symbols/matrix_symbol/matrices/seitz_mat_impl.rs: rotation_type"]}
{"id": "C79", "title": "Relabelled axes", "statement": "Writing a symbol for axes renamed cyclically (x,y,z -> y,z,x: axes, translation letters, lattice letter and origin shift renamed; not for R) gives exactly the relabelled group, of the same space-group type; when both symbols return positions and the group has no extra translations, there are equally many and the listed operations correspond up to whole cells; unless the first symbol is a plain 3-fold or 6-fold, one returns positions iff the other does.", "quantifier": "every Hall notation (any number of symbols, any letters, any shift)", "why_tests_cant": "all notations; compares two computations", "anchors": ["src/hall_symbols/matrix_symbol/matrices/rotation_matrices.rs", "src/hall_symbols/translation_symbol.rs", "src/hall_symbols/lattice_symbol/mod.rs", "src/hall_symbols/mod.rs: general_positions"]}
{"id": "C80", "title": "Mirror image of a symbol", "statement": "Exchanging right and left screws (3_1/3_2, 4_1/4_3, 6_1/6_5, 6_2/6_4), replacing quarter translations u,v,w,d by three of them and negating the origin shift gives exactly the group seen in a mirror (conjugated by the inversion); one symbol returns positions iff the other does, and then, if the group has no extra translations, with equally many positions and corresponding listed operations. With a leading minus both symbols denote the same group.", "quantifier": "every Hall notation", "why_tests_cant": "all notations; compares two computations", "anchors": ["src/hall_symbols/matrix_symbol/matrices/rotation_matrices.rs: set_transform, set_translation_from_symbols", "src/hall_symbols/origin_shift/mod.rs: shifted_matrix", "src/hall_symbols/mod.rs: general_positions"]}
{"id": "C81", "title": "Debug texts identify values", "statement": "Two Hall notations, two operations or two sets of general positions with the same Debug ({:?}) text are field-by-field identical (unlike the Display text of notations). The numbers that appear in the Debug text of an operation or of general positions are its entries, column by column, in order. A crystal system is displayed as its name in lower case, different systems print differently, and they are ordered from triclinic, the default, to cubic.", "quantifier": "all notations, operations with any integer entries, and position sets of any length", "why_tests_cant": "injectivity over all values", "anchors": ["src/hall_symbols/mod.rs: HallSymbolNotation", "src/hall_symbols/matrix_symbol/matrices/mod.rs: SeitzMatrix", "src/hall_symbols/general_positions.rs: GeneralPositions", "src/hall_symbols/origin_shift/mod.rs: OriginShift", "src/hall_symbols/lattice_symbol/mod.rs: LatticeSymbol", "src/database/crystal_system.rs: CrystalSystem"]}
{"id": "C82", "title": "Site symmetry does not depend on the description", "statement": "The rotations that fix a point are the same after an origin shift (at the shifted point), relabelled after relabelling the axes (at the relabelled point), and the same in the mirror image (at the mirrored point).", "quantifier": "every notation that returns positions and has no extra translations (for the shift: no leading minus); every rational point", "why_tests_cant": "all symbols and all points", "anchors": ["src/hall_symbols/mod.rs: general_positions", "src/hall_symbols/origin_shift/mod.rs: shifted_matrix", "src/hall_symbols/general_positions.rs: derive_full_sets"]}
{"id": "C83", "title": "Multiplication table", "statement": "For every symbol that returns positions without extra translations, the listed operations have a multiplication table: the product of any two listed operations is == exactly one entry of the list, and in every row and every column of the table each listed operation occurs exactly once (a*y == c and y*a == c have exactly one listed solution y). For incomplete results (A 4) some products are not in the list.", "quantifier": "every Hall notation, every pair of positions in the listing", "why_tests_cant": "Ranges over all notations and all pairs.", "anchors": ["src/hall_symbols/mod.rs: general_positions", "src/hall_symbols/general_positions.rs: derive_full_sets", "src/hall_symbols/matrix_symbol/matrices/seitz_mat_impl.rs: Mul, PartialEq"]}
{"id": "C84", "title": "Reflection conditions", "statement": "For every symbol that returns positions without extra translations, the listed operations give the right systematic absences: if a listed operation keeps the indices (hkl) but shifts the phase by h.t, then for every point x the images scatter with every phase as often as with the phase shifted by h.t; and a reflection is forbidden in this way if and only if for every point the phases are invariant under a shift by some s/12 of a turn, 0<s<12 (so that the amplitudes cancel). Centred lattices always forbid the textbook reflections (A: k+l odd, B: h+l odd, C: h+k odd, I: h+k+l odd, F: mixed parity, R: -h+k+l not divisible by 3), and for indices that no listed rotation except the identity keeps nothing else is forbidden.", "quantifier": "every Hall notation, all integer indices, all rational points", "why_tests_cant": "Infinitely many indices, points and notations.", "anchors": ["src/hall_symbols/mod.rs: general_positions", "src/hall_symbols/general_positions.rs: derive_full_sets", "src/hall_symbols/lattice_symbol/mod.rs: get_translations"]}
{"id": "C85", "title": "Printed notations and the tables", "statement": "For every accepted text in which the printed form loses at most the direction of plain body-diagonal threefold axes, parsing the Display text gives exactly the same general_positions (or the same panic or loop). This covers all rows of both tables. The Display text of a tabulated notation is the tabulated text exactly when the second matrix symbol is not a 2 or -2 without direction mark (it is one in 376 of 530 and 173 of 230 rows) and the row is not 'F 2 -2yd' (whose y is overruled by the default direction); in all other cases looking the Display text up by Hall name finds nothing.", "quantifier": "every accepted text of the stated kind; every row of both tables", "why_tests_cant": "The first part ranges over all texts and all step budgets.", "anchors": ["src/hall_symbols/mod.rs: Display", "src/hall_symbols/matrix_symbol/mod.rs: Display", "src/database/space_group_table.rs: get_space_group_number_by_hall"]}
{"id": "C86", "title": "Every result is one of the 230 space-group types", "statement": "For every Hall notation for which general positions are produced (listed in the tables or not, with or without extra translations), the group it describes can be turned into the group of exactly one of the 230 default rows by a change of coordinates that keeps right-handed axes right-handed; hence every accepted text whose positions are produced has exactly one space-group number between 1 and 230, two notations are of the same type exactly when they belong to the same row, and it is decidable whether they are.", "quantifier": "every Hall notation and every text, every fuel", "why_tests_cant": "Ranges over all notations: infinitely many groups (arbitrary symbols, centrings, origin shifts), and the conclusion is about the existence of an affine change of basis and the non-existence of 229 others.", "anchors": ["src/hall_symbols/mod.rs: HallSymbolNotation::general_positions", "src/database/space_group_table.rs: DEFAULT_SPACE_GROUP_SYMBOLS"]}
{"id": "C87", "title": "The space-group number settles the class and the kind of a result", "statement": "Every Hall notation for which general positions are produced has exactly one space-group number between 1 and 230 (the number of the default row whose group it can be turned into), and that number alone determines the crystal class of the returned positions (how many operations of each rotation type, and, when no symbol adds an extra lattice translation, the number of positions), whether the returned positions contain an inversion, contain only proper rotations, leave a direction unchanged, whether some point is fixed by as many operations as there are rotation parts, and whether no point is fixed by more than the identity (of the group always, of the returned positions when there is no extra lattice translation). The number is one of the 65 without improper operations exactly when the notation is written without any minus sign; a leading minus makes it one of the 92 centrosymmetric ones.", "quantifier": "every Hall notation, every fuel, every point of space", "why_tests_cant": "Ranges over all notations, listed or not, and over all points of space; the number is defined by the existence of an affine change of coordinates.", "anchors": ["src/hall_symbols/mod.rs: HallSymbolNotation::general_positions", "src/hall_symbols/general_positions.rs: GeneralPositions, num_of_general_pos", "src/database/mod.rs: get_hall_symbol_from_default, get_space_group_number_from_default"]}
{"id": "C88", "title": "What does and does not change the space-group number", "statement": "Writing another origin shift behind a notation without a leading minus never changes its space-group number; neither does relabelling the axes cyclically (for a lattice other than R). Writing the mirror image of a notation gives the number of the mirror image: the partner for the 22 numbers of the eleven enantiomorphic pairs, the same number otherwise; so a notation and its mirror image have the same number exactly when the number is in none of the eleven pairs. With a leading minus the shift can change the number: \"-P 2\" is number 10 and \"-P 2 (3 0 0)\" is number 13, because the inversion of the leading minus is not moved along.", "quantifier": "every Hall notation, every pair of origin shifts, every number", "why_tests_cant": "Ranges over all notations and all shifts and speaks about existence of changes of coordinates.", "anchors": ["src/hall_symbols/mod.rs: HallSymbolNotation::general_positions", "src/hall_symbols/origin_shift/mod.rs: OriginShift", "src/database/mod.rs: DEFAULT_SPACE_GROUP_SYMBOLS"]}
{"id": "C89", "title": "Every result belongs to exactly one of the 73 arithmetic crystal classes", "statement": "Call two groups of one arithmetic class when a linear change of coordinates turns the pure translations of one into those of the other and the rotation parts of one into those of the other. Every Hall notation for which general positions are produced is of the class of exactly one of the 73 symmorphic default rows. The class is settled by the space-group number: two notations are of one class exactly when their numbers stand in the same of the 73 textbook lists, and these lists split 1..230 into disjoint parts with one symmorphic number each.", "quantifier": "every Hall notation, every fuel; every pair of notations", "why_tests_cant": "The classes are defined by the existence of a change of coordinates, and non-membership means that none exists; it ranges over all notations, listed or not.", "anchors": ["src/hall_symbols/mod.rs: HallSymbolNotation::general_positions", "src/hall_symbols/lattice_symbol/mod.rs: LatticeSymbol", "src/database/mod.rs: get_hall_symbol_from_default, get_space_group_number_from_default"]}
{"id": "C90", "title": "Leaving out screws, letters and the origin shift gives the symmorphic group of the class", "statement": "If general positions are produced for a notation, they are also produced for the notation with every screw subscript, translation letter and the origin shift left out. When the given group has no translations beyond the centring ones, the bare notation has the same rotation parts, the same lattice vectors and the same number of positions, its translations are all centring translations, its group consists of exactly the given rotation parts combined with the centring translations, and its space-group number is the symmorphic number of the given notation's arithmetic class. The positions of the bare notation have translation exactly zero, whatever the centring, so that each is written as its rotation part.", "quantifier": "every Hall notation, every fuel", "why_tests_cant": "Ranges over all notations with any number of symbols; the group and its number are defined over infinite sets of operations and changes of coordinates.", "anchors": ["src/hall_symbols/mod.rs: HallSymbolNotation::general_positions", "src/hall_symbols/matrix_symbol/matrices/mod.rs: MatrixSymbol::seitz_matrix", "src/hall_symbols/origin_shift/mod.rs: OriginShift"]}
{"id": "C91", "title": "Printed rotation types and conversions of single values", "statement": "For every operation of finite order with affine last row, and so for every operation general positions list, the rotation type prints as the order (1, 2, 3, 4 or 6) of its proper part in decimal followed by a combining overline exactly when the operation changes handedness; different types print differently. Reading a screw subscript from text or from a character accepts exactly the digits 1 to 5, agrees between the two, and printing gives the digit back; the eight translation letters and their characters correspond one to one and every other character reads as invalid.", "quantifier": "every affine operation of finite order (entries up to 65536); every listed operation of every notation; every text and every character", "why_tests_cant": "The operations, and the texts a conversion may meet, cannot be enumerated.", "anchors": ["src/hall_symbols/matrix_symbol/notations/mod.rs: Display for RotationType, From<&str> for NFoldSub, From<char> for NFoldSub", "src/hall_symbols/translation_symbol.rs: TranslationSymbol", "src/hall_symbols/matrix_symbol/matrices/seitz_mat_impl.rs: SeitzMatrix::rotation_type"]}
{"id": "C92", "title": "Hermann-Mauguin names describe the groups", "statement": "For every row of both tables the Hermann-Mauguin name fits the group of the row's Hall symbol: the translations are those of the lattice letter, every axis, screw axis, rotoinversion, mirror or glide plane named is present along its symmetry direction (axes n_k turn counterclockwise by 1/n and advance k/n of the direction, glide letters move by the textbook half or quarter vectors), and nothing but the identity and inversion belongs to a direction marked 1. The one exception is number 90, listed as P 42 1 2 in both tables. The rotations named generate all rotation parts of the group, except in the default table for the numbers whose name is cut at the slash (10-15, 83-88, 123-142, 175, 176, 191-194) and 155.", "quantifier": "every row of the full and the default table; all operations of the infinite groups", "why_tests_cant": "The groups are infinite: presence needs a witness per row, but 'nothing along this direction' and the refuted cases range over all operations.", "anchors": ["src/database/mod.rs: DefaultTable, FullTable, get_hm_full_notation, get_hall_symbol, get_space_group_number", "src/database/space_group_table.rs", "src/hall_symbols/mod.rs: HallSymbolNotation::general_positions"]}
{"id": "C93", "title": "A Hermann-Mauguin name tells the space-group number", "statement": "If the name listed in one row of either table (not one of the cut names of C92) describes (fits, and names enough elements to generate the rotations) the group of the Hall symbol listed in any row of either table with the same symmetry directions, the two rows have the same space-group number, or their numbers are 23 and 24, or 197 and 199, where both names do describe both groups.", "quantifier": "all pairs of rows of the two tables; all operations of the infinite groups", "why_tests_cant": "That an element is absent from a group ranges over infinitely many operations, for each of 500000 pairs of rows.", "anchors": ["src/database/mod.rs: get_hm_full_notation, get_hall_symbol, get_space_group_number", "src/database/space_group_table.rs", "src/hall_symbols/mod.rs: HallSymbolNotation::general_positions"]}
{"id": "C94", "title": "The number tells how many cell parameters are free", "statement": "For every notation that returns general positions and is of space-group type n, the cells (metrics) on which all listed operations are isometries form a linear space whose dimension is the number of free cell parameters of the crystal system of n: 6 triclinic, 4 monoclinic, 3 orthorhombic, 2 tetragonal, trigonal and hexagonal, 1 cubic. Some of these metrics is always that of a real cell (positive definite).", "quantifier": "every notation that returns positions, in whatever setting it is written; all metrics", "why_tests_cant": "The notations are unboundedly many and the metrics a continuum: a dimension is not observable on finitely many cells.", "anchors": ["src/hall_symbols/mod.rs: HallSymbolNotation::general_positions", "src/hall_symbols/general_positions.rs: GeneralPositions", "src/database/mod.rs: DefaultTable"]}
{"id": "C95", "title": "Every result has one of the 14 Bravais lattices", "statement": "For every notation that returns general positions there is exactly one of the 14 Bravais lattices (aP, mP, mC, oP, oC, oF, oI, tP, tI, hR, hP, cP, cF, cI) such that some linear change of coordinates turns the notation's lattice of translations into that of the lattice's symmorphic default row (2, 10, 12, 47, 65, 69, 71, 123, 139, 166, 191, 221, 225, 229) and the symmetries of the notation's bare lattice (linear maps of the lattice onto itself that keep lengths in every cell the group allows) into the rotations of that row. Which one is read off the space-group number by the International Tables lists, which partition 1..230; two notations have lattices of the same Bravais type exactly when their numbers are in one list.", "quantifier": "every notation that returns positions; all linear maps with rational coefficients, all metrics", "why_tests_cant": "That nothing else is a symmetry of the lattice ranges over infinitely many linear maps and a continuum of cells, for unboundedly many notations.", "anchors": ["src/hall_symbols/mod.rs: HallSymbolNotation::general_positions", "src/hall_symbols/lattice_symbol/mod.rs: LatticeSymbol", "src/database/mod.rs: DefaultTable"]}
{"id": "C96", "title": "Every result has one of the 24 Patterson symmetries", "statement": "Call patterson(h) the notation with a minus, the same lattice letter and the bare rotation symbols (no screws, no letters, no shift). For every notation whose symbols are valid and add no translations beyond the lattice letter's, the group of patterson(h) is exactly: the rotations of the group and their opposites, with the group's translations; it therefore maps the set of difference vectors of any set of points that the original group keeps into itself (the Patterson function's symmetry). If the notation has space-group number n, patterson(h) has exactly the number International Tables lists as n's Patterson symmetry; the 24 lists partition 1..230 and each is headed by one of the symmorphic types. So every result has exactly one of the 24.", "quantifier": "every notation with valid symbols and no extra translations (every returned result of that kind); every operation; every set of rational points", "why_tests_cant": "Ranges over infinitely many notations and arbitrary infinite sets of points; the number of the derived notation is decided by the existence of a change of coordinates.", "anchors": ["src/hall_symbols/mod.rs: HallSymbolNotation::general_positions", "src/hall_symbols/lattice_symbol/mod.rs: LatticeSymbol", "src/hall_symbols/matrix_symbol/mod.rs: MatrixSymbol", "src/database/mod.rs: DefaultTable"]}
{"id": "C97", "title": "Equivalent reflections, Friedel pairs and the 11 Laue classes", "statement": "For every notation whose positions are returned and which adds no translations beyond the lattice letter's: for every reflection (h k l), every rational point and every listed operation (R, t), the images of the point under all listed operations scatter the reflection (h k l)R with exactly the phases (with multiplicity, up to whole turns) with which they scatter (h k l), all moved by (h k l).t; the opposite reflection scatters with the opposite phases; so (h k l), (h k l)R and (-h -k -l) are forbidden together. For every returned result that has space-group number n, the rotation parts of the positions together with their opposites have the census (determinants and traces, counted) of the Laue class of n, one of the 11 classes with an inversion; and the number of reflections equivalent to (h k l) times the number of those rotations that keep it is the order of that group.", "quantifier": "every notation with returned positions and no extra translations; every reflection, every rational point, every listed operation; every space-group number", "why_tests_cant": "Ranges over infinitely many notations, reflections and points; the class is decided through the existence of a change of coordinates to a table row.", "anchors": ["src/hall_symbols/mod.rs: HallSymbolNotation::general_positions", "src/hall_symbols/general_positions.rs: GeneralPositions::derive_full_sets", "src/database/mod.rs: DefaultTable"]}
{"id": "C98", "title": "What editing the text of a Hall symbol does to its group", "statement": "For texts: (1) only the lattice symbol, the written components of the matrix symbols (in order) and the three shift numbers matter: texts that agree in these - whatever the blanks between symbols and the text left after them - parse to the same value. For texts in the usual form (blank-separated symbols with at most one direction mark, shift in i32): (2) writing ' (a b c)' behind a symbol without leading minus conjugates its group, and its listed positions when there are no extra translations, by (a b c)/12; (3) exchanging left and right screws, quarter letters for three of them, and the signs of the shift gives exactly the mirror image; (4) a leading minus adds exactly the inversion at the origin; (5) a lattice letter adds exactly its centring translations to the group written with P; (6) one more symbol at the end adds exactly the operation of that symbol (with the default direction its place gives it, seen from the shifted origin) and leaves the meaning of the earlier ones as it was - each time 'the group generated by'.", "quantifier": "every text with any number of matrix symbols, any marks, letters and shifts; every operation", "why_tests_cant": "Infinitely many texts and infinite groups; end to end from the characters to the operations.", "anchors": ["src/hall_symbols/parser.rs: parse_hall_symbol", "src/hall_symbols/mod.rs: HallSymbolNotation::try_from_str, general_positions", "src/hall_symbols/origin_shift/mod.rs: OriginShift::shifted_matrix", "src/hall_symbols/matrix_symbol/parser.rs"]}
{"id": "C99", "title": "Which origin shifts give the same group", "statement": "For a notation without extra translations, with or without a leading minus, the shifts v and w give the same group exactly when every rotation R written in it brings d = w - v to a place that differs from d by a centring translation of its lattice letter; then the same operations are listed. Whether positions are returned never depends on the shift. Without a leading minus it does not matter which rotations are written: the condition then holds for every operation of the group. The displacements d that are not noticed form a group, which contains the centring translations and every direction that all written rotations keep.", "quantifier": "every Hall notation, every pair of integer shifts", "why_tests_cant": "Infinitely many notations and shifts; compares infinite groups.", "anchors": ["src/hall_symbols/origin_shift/mod.rs: OriginShift::shifted_matrix", "src/hall_symbols/mod.rs: HallSymbolNotation::general_positions"]}
{"id": "C100", "title": "The label behind a space-group number names the setting", "statement": "For every row of the full table: the text behind the colon of its number (48:2, 14:b2, 57:a-cb, 146:R, or nothing) is one of 44 setting codes, each naming new axes in terms of old ones (the six orthorhombic settings, also after an origin choice 1 or 2; the three monoclinic unique axes, the three cell choices and the exchange marked by a minus; hexagonal and obverse rhombohedral axes). The group of the row's Hall symbol is exactly the group of the first row of the same number, referred to the axes the code names and, unless the code begins with 2, to the same origin. A row whose group contains an inversion has one at the origin unless its code begins with 1, and every row with an origin choice has an inversion.", "quantifier": "every row of the full table, all operations of the infinite groups", "why_tests_cant": "Equality of infinite groups in two coordinate systems; one listing per row cannot show that the change of axes is the one named.", "anchors": ["src/database/space_group_table.rs: HALL_NAME, NUMBER_AND_CHOICE", "src/database/space_group_table.rs: FULL_SPACE_GROUP_SYMBOLS, get_space_group_number, get_hall_symbol", "src/hall_symbols/mod.rs: HallSymbolNotation::general_positions"]}
{"id": "C101", "title": "A number found by looking up a Hall symbol is the right one", "statement": "For every text that parses: if the text itself, or the text printed by Display for the notation read from it, is found in the full table by get_space_group_number_by_hall, then the notation's group is of the space-group type of the number found (number 24 of the full table standing for 23), and general_positions returns; in the default table likewise, without exception. A printed text that is found in either table reads back to exactly the notation printed, although printing is not injective in general. A row's own text is printed unchanged, or what is printed is in neither table, so a row and its print never name two different numbers.", "quantifier": "every text that parses (any length), every row of both tables", "why_tests_cant": "There are infinitely many texts that print as a given row; that the printed text has not lost the directions that distinguish two groups is a statement about all of them, and the type is a statement about infinite groups.", "anchors": ["src/database/space_group_table.rs: get_space_group_number_by_hall, get_hall_symbol", "src/hall_symbols/mod.rs: HallSymbolNotation Display, try_from_str, general_positions", "src/hall_symbols/matrix_symbol/mod.rs: MatrixSymbol Display"]}
{"id": "C102", "title": "Which settings the default table's labels really stand for", "statement": "Every row of the default table except number 24 denotes exactly the group of the row of the full table with the same label, if a label n:1 is read as n:2: the 24 rows the default table labels origin choice 1 are given in origin choice 2, so a default row whose group contains an inversion always has one at the origin. Number 24 of the default table denotes the group of no row of the full table. Looked up in the default table a default row's Hall symbol gives its label; looked up in the full table it gives the label with choice 2, except for 15 rows whose text the full table does not contain.", "quantifier": "every row of the default table, all operations of the infinite groups", "why_tests_cant": "That two texts denote the same group, or that a group is that of no row at all, is a statement about infinite groups.", "anchors": ["src/database/space_group_table.rs: get_space_group_number_by_hall, get_hall_symbol, get_space_group_number", "src/database/space_group_table.rs: DEFAULT_SPACE_GROUP_SYMBOLS, FULL_SPACE_GROUP_SYMBOLS"]}
{"id": "C103", "title": "Multi-line debug texts", "statement": "The multi-line Debug text ({:#?}) of a Hall notation, a matrix symbol, a symbol error, an operation or a set of general positions is its one-line Debug text spread over lines: every field or entry on a line of its own, indented by four blanks per open bracket and followed by a comma; without blanks, line ends and closing commas the two texts are the same. Two notations, symbols, operations or sets of positions with the same multi-line text are field-by-field identical.", "quantifier": "all notations, symbols, errors, operations with any integer entries, and position sets of any length", "why_tests_cant": "Injectivity and the layout are statements about all values of unbounded size.", "anchors": ["src/hall_symbols/mod.rs: HallSymbolNotation derive(Debug)", "src/hall_symbols/matrix_symbol/mod.rs: MatrixSymbol, MatrixSymbolError derive(Debug)", "src/hall_symbols/matrix_symbol/matrices/mod.rs: SeitzMatrix derive(Debug)", "src/hall_symbols/general_positions.rs: GeneralPositions derive(Debug)", "src/hall_symbols/origin_shift/mod.rs: OriginShift derive(Debug)", "src/hall_symbols/lattice_symbol/mod.rs: LatticeSymbol derive(Debug)"]}
{"id": "C104", "title": "Hermann-Mauguin names looked up in the two tables", "statement": "The names of the default table are padded with blanks to ten characters (except the cut ones), those of the full table are not. With the blanks at its end taken off, the name of a default row leads to that row's own label in the full table, exactly for the rows whose name is not cut (C92). Of all texts without a blank at the end the default table finds only fifteen, so that for instance 'P 1' finds nothing there. A text is found in both tables in just twelve cases: six give the same label, and six (P 4, P 42, I 4, I 41, P 6, P 63) give two different space groups, the default table answering with the group of the cut name (83, 84, 87, 88:1, 175, 176) and the full table with 75, 77, 79, 80, 168, 173.", "quantifier": "every text; every row of both tables", "why_tests_cant": "What is found and not found ranges over all texts, of any length.", "anchors": ["src/database/space_group_table.rs: get_space_group_number_by_hm, get_hm_full_notation", "src/database/space_group_table.rs: DEFAULT_SPACE_GROUP_SYMBOLS, FULL_SPACE_GROUP_SYMBOLS"]}
