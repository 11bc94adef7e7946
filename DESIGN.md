# Formal model of crystallographic-group: design

## Approach
A shallow, executable Gallina model of the crate, function by function, in
`rocq/theories/`. Every definition of the model cites the file and lines it models.

* `i32` values are `Z`, Rust `%` is `Z.rem`; `&mut` arguments become results.
* Panics and non-termination are explicit outcomes (`Done a | Panic why | OutOfFuel`).
  Loops take a step budget; the theorems quantify over all budgets and say that the budget
  is irrelevant once it is large enough (C01, C29, C62).
* `HashMap`/`HashSet` are association lists (only get/insert are used, iteration order is never observed).
* `f64` is the IEEE binary64 of Coq's `SpecFloat` (pure Gallina, no primitive floats).
* Overflow of machine integers is treated by a second model of the same source lines
  (`Machine.v`, parameterised by the build profile) and theorems relating it to the exact one (C45).

Layers

| files | content |
|---|---|
| `Base` | vectors, 3x3 matrices, the outcome type |
| `Notations` | the enums (fold, subscript, diagonal, axis, rotation type, letters, lattices), their texts, `MatrixSymbol`, `MatrixSymbolBuilder` |
| `Winnow`, `Parser` | the winnow combinators used; the lattice, matrix-symbol, origin-shift and Hall parsers; `Display` of notations |
| `Seitz` | `SeitzMatrix`: equality, hash, order, `+`, `-`, `*`, powers, lattice generators, origin shift |
| `F64` | determinant, rotation type, eigenvector, `to_f64_mat`, `try_inverse`, `powi` |
| `Jones`, `Display` | text forms of operations and of general positions |
| `Rotations` | the Seitz matrix of a matrix symbol |
| `Tables` | the constant tables, transcribed by `tools/gen_tables.py` |
| `Generate`, `Positions` | generation loop, sorting, general positions, full sets, listings |
| `Order` | derived equality and ordering of notations and positions |
| `Lookup` | space-group tables, enum variants |
| `FamilyData` | generated witnesses for C78 (not part of the model) |
| `DebugText` | derived `Debug` of `HallSymbolNotation`, `SeitzMatrix`, `GeneralPositions` and their fields |
| `Machine3` | `text_format`, `Display` of operations and positions with machine integers; `num_generators` |
| `Values` | `Display for RotationType`, `From<&str> for NFoldSub`, setters of `MatrixSymbol` |
| `NormF64` | `translation_minimal_repr` with the floating-point norms of the source |
| `Messages` | `Debug` of `MatrixSymbol`, `MatrixSymbolError`, panic messages, the error of `try_from_str` |
| `Machine2` | `+`, `-`, `is_unique_rotation`, `rotation_type`, `proper_rotation`, eigenvector with machine integers |
| `Machine` | the generation, listing, product, power and shift code with machine integers |
| `Spec*` | the independent specification vocabulary: what the statements mean, without reference to how the code computes |
| `Algebra`, `*Facts`, `F64Div`, `F64Err`, `Restriction`, `GroupCheck`, `RowData` (the tabulated groups written out and checked against the model), `TypeCount`, `TypeData`, `Cocycle`, `LatticeBasis`, `LatticeData`, `ClassData` | supporting lemmas and checked certificates |
| `Prop*` | the property theorems, named `Cnn_...` |

Conventions: a property that the code violates is recorded as its exact characterisation (an
"if and only if") together with a theorem `..._refuted` giving a witness. Beside each theorem
an `Example`/lemma (or the witness part of the theorem) shows a concrete case meeting its hypotheses.

## Per property: what is modelled and how it is proved
C01 parser total: fuel = input length suffices, no `Panic` outcome; induction on fuel.
C02 acceptance: iff-theorem over all strings.
C03 grammar: a printer for abstract Hall symbols (`SpecText`) and `parse (print a) = Ok (defaults a)`; every text has a reading; induction over lists.
C04 defaults: position-wise characterisation of the rewriting, `_refuted` for explicit axes.
C05 round trip: from C03 applied to the Display function; exact condition.
C06 symbol matrices: case analysis on fold/diag/axis/sub, translation letters arbitrary.
C07 screws: case analysis against the arithmetic rule 12*M/N.
C08 letters: induction, Permutation.
C09 origin shift: ring identities and congruences mod 12.
C10 `OriginShift::new`: arithmetic on all Z (superset of i32).
C11 conjugated group: generated groups correspond; `_refuted` for '-'.
C12, C13 Seitz algebra against the affine action on rational points.
C14 hash/ord contract: exact characterisation and witnesses.
C15 powers: induction.
C16 inverse: error analysis of the binary64 cofactor formula (`F64Div`, `F64Err`, `PropInverse*`): exact for signed permutations and quarter translations, within one for unimodular matrices with bounded entries and hexagonal rotations, exact for all tabulated operations; witnesses for the off-by-one; for hexagonal rotations with reduced translations the exact set of failing translation pairs (`PropInverse4`, kernel computation over the whole finite family).
C17 crystallographic restriction: invariant quadratic form + trace recurrence, no bound except the f64 exactness one (C18).
C18 f64 determinant: exactness of SpecFloat operations on integers below 2^53.
C19 eigenvector: exact panic condition.
C20 RotationType::cmp: all pairs.
C21 positive_mod: arithmetic.
C22, C23 Jones text: an independent reader of xyz text (`SpecXyz`), read (print m) = m; the order tables are exactly the three rotation sets.
C24 centring vectors.
C25-C29 generation: loop invariants; the group generated by the generators (inductive predicate, `SpecHall`) as specification; termination iff finite point group iff compatible symbols (`SpecCompat`).
C30 sort: stable reordering, exact panic condition.
C31, C32 tables: kernel computation over all rows, plus general theorems.
C33-C36 full sets and text.
C37-C44 database: general list lemmas + kernel computation over all rows.
C45 machine integers: bounds carried through every step (`MachineFacts`), in debug and release profile; sums, differences, classification and axes of single operations in `Machine2`/`PropMachine2`.
C46 representative choice. C47 builder and setters (induction over the calls; the sign by cases over the finitely many symbols).
C48 different rows denote different groups: computation over all pairs.
C49 printing: layout lemmas, words of the printed text, exact panic condition.
C50, C51 derived orders: total order / partial order laws by structural induction.
C52 group equality vs. positions. C53 float form: rounding error bound. C54, C55, C56 remaining operations of `SeitzMatrix`.
C57-C59 space-group types (`SpecType`): affine equivalence over the rationals. Equivalences are shown by explicit changes of basis (`TypeData`, checked by the kernel); inequivalences by counting invariants of the group modulo finite-index sublattices, proved invariant under every change of basis (`TypeCount`, `TypeFacts`), then evaluated.
C60 repeated rotations: loop invariant of the generation. C61 written form: `SpecCanon`. C62 outcome: classification of all symbol lists. C63 isometries: metrics as six rationals (`SpecMetric`); an operation keeps distances iff its rotation fixes the metric; averaging over the point group gives the converse; checked per row.
C64 orbits: group action on rational points, counting by injections (`SpecOrbit`).
C65 subgroups: monotonicity by induction on generation, Lagrange by coset counting.
C66 periods: powers in the group, orders of the cubic and hexagonal rotations.
C67 listings: from C22, C35 and C61.
C68 crystal classes: `Subgroups` enumerates all closed subsets of the 48 cubic and 24 hexagonal rotations (98 and 54) and proves the enumeration exhaustive; each is then classified by its counts.
C69 order of the list: the sorted core is the order table filtered by membership. The three tables themselves are pinned row by row, in signed axis numbers (C69_order_tables).
C70 completeness criterion: induction on generation, inverses as 143rd powers (C66).
C71 screw parts: affine algebra over Q (fixed point as the mean of an orbit) and C66.
C72 types: trace and determinant are conjugation invariants; axis by linear algebra.
C73 lattice fit: conjugation of translations.
C74 hashing: the generation is restated over abstract tables (`SpecHash`) and a simulation relates it to the model's association lists.
C75 running time: each round but the last adds an operation; counting by rotation part (C60) and the 48 cubic / 24 hexagonal rotations.
C76 messages: `Messages` models the texts; injectivity by splitting at non-word characters; case analysis over the panic sites.
C77 site symmetry: orbit-stabiliser by counting (C64), classes by C68.
C78 families: for each row a computed witness (`FamilyData`, generated by `tools/sym.py` and `tools/fpf.py`): a point with full site symmetry, or an integer combination of the fixed-point equations without solution (checked by the kernel); soundness of the certificates proved over Q.
C79, C80 relabelled and mirrored symbols (`SpecRelabel`): generators correspond, then induction on generation; outcomes by C62.
C81 `Debug` texts: `DebugText` models the derived `Debug`; injectivity by self-delimiting codes; `SpecDebug` reads the numerals of a text, and those of an operation or of general positions are its entries column by column.
C82: site symmetry transported along the correspondences of C11, C79, C80.
C83 multiplication table: from closure (C34) and distinctness (C33); uniqueness by cancelling in the group.
C84 reflection conditions: `SpecReflection` counts phases; left multiplication by a listed operation permutes the images; the converse by a point that depends on the indices and tells all images apart.
C85 printed notations: the positions depend only on lattice symbol, shift, folds, signs and matrices (`positions_alike`); the tables by kernel computation.
C86 one of the 230 types, for every notation that returns: membership in the generated group is decidable (finite closure), so its translations, a lattice between 12 Z^3 and Z^3, have one of 3612 Hermite bases (`LatticeBasis`); in a basis from `LatticeData` the rotations lie in one of 16 matrix groups, whose subgroups are all conjugate to representatives of the 73 arithmetic classes (`ClassData`); for each class a Smith-normal-form certificate (`Cocycle`) shows that up to the origin only finitely many translations are possible, 303 in all, and each is turned into a default row by a given change of coordinates. All tables are found outside Coq (tools/types) and checked by the kernel; none is trusted.
C87 number and kind: `of_type h n` (SpecKind) says that the group of h is turned into the group of the default row numbered n; existence from C86, uniqueness from C58. A change of coordinates that turns one group into another carries rotation types, invariant directions and fixed points along, so the facts proved for the rows (C42, C78, C77) hold for every notation of that number; minus signs through C68.
C88 number under shift, relabelling and mirror image: from C11/C79/C80 by composing changes of coordinates; the mirror numbers of the rows come from C59; the counterexample with a leading minus is computed in the kernel.
C89 arithmetic classes: the class of a group is kept by every change of coordinates, so the number settles it (C87); rows in one textbook list have the same letter and rotation parts and the symmorphic rows split (kernel sweep over the 230 written-out rows); two split groups of one class are of one type, so C58 separates the 73 symmorphic rows.
C90 bare notations: induction over `generated` in both directions (rotation parts keep the centring lattice because conjugation stays in the group); returning by C62; the origin has full site symmetry, so C87 gives a symmorphic number.
C91 printed rotation types and conversions (Values.v): C17 for the order and the determinant, then cases; the text conversions by cases on string equality.
C92 names: `SpecHM` reads a Hermann-Mauguin name as in International Tables A 2.2.4; presence of an element by a witness found in the kernel (core operation, centring vector, cells -1..1), 'nothing along this direction' and completeness over the finitely many rotation parts (the group is core plus centring plus whole cells, C26/C48).
C93 name tells the number: the n-th power of an operation moves by (1 + R + ... + R^(n-1)) t, which takes finitely many values modulo n cells; so for every row the elements that can stand along each direction form a finite list (`profile`), and all pairs of rows of the two tables are swept in the kernel; pairs not told apart this way differ in the lattice letter or the name is incomplete there.
C94 free cell parameters: `pull A G` is the metric G seen through a linear map; the change to the default row of the type (C87) carries the metrics kept by one group onto those kept by the other (both ways, with the adjugate as inverse), and C63 says which metrics the default row keeps: a space with an explicit basis of the right length (`basis`), whose independence is linear arithmetic. A round metric of the family pulled back is positive.
C95 Bravais lattices: a symmetry of the bare lattice is M/d taking the translations onto themselves and keeping every metric the group keeps (`lattice_symmetry`). Such symmetries are carried along by changes of coordinates (`symmetry_after`, `symmetry_before`), so by C87 it is enough to find them for the default rows; there they depend only on the family of cells and the lattice letter (15 cases), the images of the axes are lattice vectors of bounded length, and the kernel enumerates them: they are the rotations of a symmorphic full-table row (`lattice_exact`), which C57 identifies with a default row. Uniqueness by C89.
C96 Patterson symmetry: the group of the bare, centred notation is computed by induction on the generators (rotations up to sign, translations of the lattice letter); it acts on difference vectors by a direct calculation over Q. The Patterson group is carried along by changes of coordinates, so by C87 one sweep over the default rows, comparing each with its listed symmorphic row, gives the number for every notation; the lists are International Tables' 24, shown to partition 1..230.
C97 equivalent reflections: (hR).p = h.(Rp+t) - h.t, and listed operations permute under composition (injections both ways, as in C84); Friedel by sign; the Laue census of a set of rotations closed under product is itself or, without an inversion, its doubling; with C87 a check over the 230 numbers gives the class; orbit counting for the number of equivalents.
C98 editing the text: the value of a text in the usual form is computed from C03 (defaults are unique); the group depends on the shift only modulo whole cells; then C11 (shift), C80 (mirror) and inclusions of generator sets both ways give each edit; defaults look only at earlier symbols, so a symbol appended leaves the others as they were.
C99 equivalent origins: conjugation by w differs from conjugation by v by the translation d - R d on the left; inclusions of generator sets both ways; conversely the difference of the two generators is a translation of the group. Listings by C52, returning by C62.
C100 labels: 44 setting codes in SpecLabel.v as columns of the new axes; the row's primitive group is checked against that of the first row of its number under the change of coordinates the code dictates (origins of choice 2 found by search, checked by change_check of C57), composed with the changes to the primitive cells; the linear part and the origin of the composite are compared exactly.
C101 found: what is printed and found is a row, and no row shows an x or y before a diagonal mark nor a lossy third symbol (a property of the printed text, carried back to the notation through C05), so the print reads back to the same notation (C05); the type is then that of the row (C57).
C102 default labels: the groups of the default rows are compared in the kernel with the row of the full table the label names when n:1 is read n:2 (groups_eqb, sound and complete by C48's lemmas); origins by C100.
C103 multi-line debug: `PrettyText.v` models the formatter's builders on a tree of fields and entries, one per public type; `SpecPretty.v` says what removing the layout and spreading over lines mean on plain texts; both by induction on the tree, then C81.
C104 names in the two tables: every name of both tables is computed in the kernel (PropName); all texts by C38 (a text that is found is in the column); trimming blanks by induction on the text (SpecName).
PropCases.v: concrete inputs meeting the hypotheses of older properties (C14, C25, C27, C36, C34, C38, C51, C67, C88).
PropRefine.v adds to C11 (extra translations: C62 gives the positions of the unshifted symbol, C25/C26 the correspondence), to C51 (counterexample without the condition) and to C77 (conjugate site symmetries).
C46 also for the `f64` norms as written (`NormF64`): entries are 0..12, so all norms and comparisons are checked by the kernel.
Later properties are described in `properties.jsonl` and in the header of the `Prop*` file that proves them.

## Trusted base
* Coq 8.16.1's kernel including `vm_compute` (table sweeps use it, also through
  `vm_cast_no_check`, which only leaves the conversion to the kernel's check at `Qed`). No `native_compute`.
* `Print Assumptions` answers "Closed under the global context" for every theorem listed in
  MANIFEST.json: no axiom is used, neither from the standard library nor from elsewhere. Loading the
  libraries brings `Coq.ssr.ssrunder.Under_rel.*` (Over_rel, Under_rel_from_rel, over_rel,
  over_rel_done, Under_rel, Under_relE, under_rel_done) into the context of some files; no theorem depends on them.
* The faithfulness of the model to the source, which is by reading. The tables are transcribed
  by a script (`tools/gen_tables.py`), not by hand.
* Semantics of dependencies that are not in /repo, from their documentation and published
  sources: winnow 0.7 (`literal`, `alt`, `one_of`, `space0/1`, `repeat`, `separated`, `dec_int`,
  `take_escaped`, what is left in the input after an error); nalgebra (matrix product and its order of
  accumulation, `determinant` and `try_inverse` formulas, `fixed_resize`, `Display` box layout, `Debug` of vectors,
  componentwise `partial_cmp`, order of hashed values); fraction (reduced fractions, `Display`);
  `char::from_u32`, `as` casts, IEEE arithmetic without excess precision, `sort_by` stable and calling its comparator on
  every element as soon as there are two.

## Modelled with simplifications
* `Generate`/`Positions`/`Seitz` compute with unbounded integers; the consequences for real `i32`/`usize` are C45.
* Strings are UTF-8 byte strings.
* `Vec::with_capacity` panics above `isize::MAX` bytes; running out of memory below that (an abort of the process) is not modelled.
* `GenericFraction::from(i32::MIN)` is not treated separately.
* Hashing is modelled as the sequence of values fed to the hasher.

## Not modelled
`Debug` output except that of the public value types (C76, C81, C103) and where `Display` uses it, the rendering of winnow errors (only the attached descriptions, C76),
`CHANGE_OF_BASIS_BASE_NUMBER` (dead code), the `#[cfg(test)]` modules, memory exhaustion.
