# DESIGN: formal model of wulfric in Rocq (Coq 8.16.1)

## Layout

* `rocq/theories/Base.v` - result type (exceptions as values), 3-vectors and 3x3 matrices over `R`, decidable comparisons, list helpers.
* `rocq/theories/M_*.v` - the model, one file per source module, only definitions; each definition cites `/repo` lines and says what it simplifies.
* `rocq/theories/T_*.v` - tables transcribed from the sources (`T_Atoms`, `T_Points`, `T_Tables`, and the example files in `T_Examples`).
* `rocq/theories/S_*.v` - specifications shared by several theorems, written without the model (`S_Crystal`: crystals as sets of typed points; `S_Niggli`: Niggli conditions; `S_Poscar`: grammar of POSCAR files and numerals; `S_Zone`: Wigner-Seitz cell of a lattice).
* `rocq/theories/F_*.v` - lemmas.
* `rocq/theories/P_*.v` - the property theorems `Cnn_...` with the small specifications they are stated in, their proofs, non-vacuity `Example`s, and `Print Assumptions` beneath each theorem. `_refuted` theorems give a witness for a claim that is false of the code.
* `seeded/LOG.jsonl` - wrong programs the theorems were tested against. Rows come from edits made by hand and from random edits made by a script. How the fields are filled:
  `first_failing_proof` is what the rebuild reported. `theorems_failed` is worked out from it: all listed theorems whose proofs use the failing one, directly or not. That a theorem is listed there does not show by itself that its statement became false.
  `claim` is written by hand for hand-made edits; for random edits it names the properties of those theorems, so that it too is worked out and not examined one by one.
  `theorems_tightened` is empty unless it was recorded which theorem was changed. "went through; under examination" marks edits that no proof noticed when they were tried, and for which nobody has settled whether a claim becomes false.

## Trusted base

1. The kernel of Coq 8.16.1 (`coqc`; no native compiler, no plugins besides those of the standard library).
2. Axioms. `Print Assumptions` lists for each theorem a subset of: `ClassicalDedekindReals.sig_forall_dec`, `ClassicalDedekindReals.sig_not_dec`, `FunctionalExtensionality.functional_extensionality_dep` (the reals of the standard library) and `Classical_Prop.classic` (some lemmas of `Coq.Reals`, e.g. about `Rpower` and `acos`). Theorems about strings and lists only are closed under the global context. No axioms of our own, no `Admitted`.
   `coqchk` also prints the opaque parameters of sealed modules of the standard library (`Rdefinitions.RbaseSymbolsImpl`, `RinvImpl`, `ssrunder.Under_rel`); they are implemented there.
3. The faithfulness of the model to the sources, as cited definition by definition, with these choices:
   * Floats are exact real numbers `R`, except in M_Float, M_FloatAtoms and M_FloatPath (C63, C64, C81, C82), where they are IEEE doubles of the Flocq library. Elsewhere rounding, overflow, signed zeros and infinities are not modelled; where python would return nan or inf (division by zero in numpy) the model returns the error `NotANumber`. Comparisons are decided by `Rlt_dec` etc.
   * Exceptions are values of type `exn`; a function that may raise returns `res A`. Messages are not modelled (except that the formatting of two messages can itself raise KeyError, which is modelled). Warnings are ignored.
   * Integers are `Z` (or `nat` for lengths); strings are strings of 8-bit characters, with ASCII rules for case, digits and blanks.
   * Dictionaries are insertion-ordered association lists. Objects with identity (C18 shared list, C28 caller's list, C31 dictionaries) are modelled where a claim depends on it.
   * Values in an atoms dictionary: int, bool, numpy int, float, str, None, lists (tuples and arrays count as lists unless stated). Other objects are outside the model.
   * `cell` is already a (3, 3) array of numbers.
   * numpy: `linalg.inv` is the adjugate formula, LinAlgError iff det = 0; `det`, `dot`, `norm`, `@`, `linspace`, `allclose`, `round`, `%` by their definitions.
4. External libraries are universally quantified arguments: spglib (`get_symmetry_dataset`, `find_primitive`, `niggli_reduce`), scipy's `Voronoi`, the current time in the comment of dump_poscar and in `logo`, float formatting in `hs_table`. Hypotheses about their answers, where needed, are written in the theorem. plotly is taken to accept every trace.

## What is modelled, source file by source file (under /repo/src/wulfric)

| source | modelled | not modelled |
|--------|----------|--------------|
| `_numerical.py` | all (M_Numerical) | |
| `geometry/_geometry.py` | all (M_Geometry) | error messages |
| `cell/_basic_manipulation.py` | all (M_Cell) | |
| `cell/_niggli.py` | all (M_Niggli) | |
| `cell/_voronoi.py` | all (M_Voronoi) | scipy's algorithm |
| `cell/_sc_examples.py` | all (M_ScExamples) | |
| `_lepage.py` | all (M_Lepage) | warnings |
| `_kpoints_class.py` | constructor, from_crystal, all methods and setters (M_Kpoints, M_Path), copy and sharing of name lists between objects (M_KpointsHeap), text of hs_table (M_Table), points, flat_points and ticks in double precision (M_FloatPath) | assignments of a caller to the dictionaries and lists inside of an object |
| `kpoints/_path_and_points.py` | all (M_Kpoints, M_Path) | isinstance checks of the path conversions |
| `kpoints/_hpkot_points.py`, `kpoints/_sc_points.py` | all tables and dispatch (T_Points, M_Path) | |
| `crystal/_atoms.py`, `crystal/_crystal_validation.py` | all (M_Atoms) | |
| `crystal/_basic_manipulation.py` | all (M_Positions; in double precision M_FloatAtoms) | |
| `crystal/_conventional.py` | all (M_Conventional) | |
| `crystal/_primitive.py` | all (M_Primitive) | |
| `crystal/_sc_variation.py`, `crystal/_hpkot_extended_bl_symbol.py` | all (M_Variation) | |
| `_spglib_interface.py` | all (M_Spglib, M_Atoms) | spglib's algorithms; `spglib_version` |
| `_syntactic_sugar.py` | all (M_Sugar) | |
| `io/_vasp.py` | load_poscar, dump_poscar from and to the text (M_Poscar) | opening of files |
| `_plotly_engine.py` | all drawing methods, ranges, show (M_Plot) | `save` (same code as show), legend groups, widths, sizes, hover texts |
| `constants/*` | all tables the code reads (T_Atoms, T_Tables, T_Points) | atomic masses, long names of lattices |
| `crystal/_hpkot_examples` | `hpkot_get_example` (M_Examples.v), the POSCAR files (T_Examples.v) | |
| `_exceptions.py` | the types (Base.v) | messages |
| `_package_info.py` | `logo` (M_Logo.v) | `_warranty`, printing |
| `__main__.py`, `_osfix.py` | | all |
| `_tests`, documentation | | all |

## Properties: what is modelled and how it is proved

| id | property | model and proof |
|----|----------|-----------------|
| C01 | Tolerance comparisons are a consistent family | M_Numerical (compare_with_tolerance, condition as a string, result type with ValueError). Case analysis + lra. |
| C02 | Symmetry and transitivity limits of tolerant equality | Same model. Witnesses by rational arithmetic on R. |
| C03 | get_volume call forms agree and are a volume | M_Geometry get_volume with the argument-count dispatch. Determinant algebra (ring/nsatz), Gram identity for the six-parameter form. |
| C04 | get_angle is a metric angle | M_Geometry get_angle with explicit norm threshold and clipping. Cauchy-Schwarz, acos facts from Coq.Reals.Ratan. |
| C05 | parallelepiped_check decides realisability | M_Geometry parallelepiped_check. Product formula of the radicand 4 sin s sin(s-a) sin(s-b) sin(s-g). |
| C06 | from_params / get_params round trip | M_Cell from_params/get_params. acos_cos on degrees in (0,180); Gram determinant positivity for the converse. |
| C07 | get_spherical inverts spherical coordinates | M_Geometry get_spherical. Orthonormal frame reconstruction; witness for non perpendicular zero line. |
| C08 | Reciprocal cell duality | M_Cell get_reciprocal, explicit adjugate inverse. field. |
| C09 | Transformation matrix reproduces the transformed cell | M_Cell get_transformation_matrix. field; uniqueness by inverse. |
| C10 | Scalar products are the off-diagonal Gram entries | M_Cell get_scalar_products. Orthogonal invariance by linear algebra. |
| C11 | Niggli reduction keeps the lattice | M_Niggli, eight steps and the fuelled while loop; integer matrices over Z; induction over the loop. |
| C12 | Niggli reduction returns a Niggli-reduced cell | M_Niggli loop exit analysis; desynchronisation witness. |
| C13 | Niggli loop is bounded and fails loudly | M_Niggli loop counter. |
| C14 | Lattice points enumeration is exact | M_Voronoi get_lattice_points with nested ranges over Z. |
| C15 | Voronoi cell output is a well-formed graph | M_Voronoi _get_voronoi_cell over an arbitrary oracle answer (ridge_points, ridge_vertices, vertices). List invariants. Window: Selling superbases, induction over lattice vectors (F_Window). |
| C16 | LePage classification terminates with a valid answer | M_Lepage main loop over (delta) annotated axes. Measure = number of axes. |
| C17 | k-path string/list round trip | M_Path: str.split / str.join models over Coq strings. Induction on strings. |
| C18 | Kpoints state stays consistent under any history | M_Kpoints: state record + operations with error results; invariant over op lists. |
| C19 | Removing a point may break a path (and only then) | M_Kpoints. Sufficient condition + reachable witness. |
| C20 | Kpoints output sizes agree | M_Kpoints. Induction over the path. |
| C21 | Flat coordinates are monotone and aligned with ticks | M_Kpoints ticks/flat_points as running sums. Induction. |
| C22 | Generated k-points interpolate the path | M_Kpoints points. linspace model. |
| C23 | shift_atoms centres the structure rigidly | M_Positions shift_atoms. List min/max. |
| C24 | cure_negative shifts minimally and rigidly | M_Positions cure_negative, including python-list vs ndarray representation of positions. |
| C25 | ensure_000 maps into the origin cell by lattice vectors | M_Positions ensure_000 with truncation modelled on R by up/IZR. |
| C26 | get_vector / get_distance algebra | M_Positions get_vector/get_distance. |
| C27 | Species deduction is sound | M_Atoms get_atom_species over Coq strings and the ATOM_SPECIES table. P_Case: what the lower case of a string is, from 26 pairs of letters and not from the model. |
| C28 | get_unique_names returns unique names | M_Atoms get_unique_names with decimal printing of nat. |
| C29 | validate_atoms error modes agree | M_Atoms validate_atoms: atoms dictionaries as records of python values. |
| C30 | spglib types encode equality of identifiers | M_Atoms get_spglib_types: dictionary numbering. P_Helpers: the order of strings as in a dictionary, without the comparison of the model (also for C46). |
| C31 | Attribute-style dictionary round trip | M_Sugar. |
| C32 | Conventional cell transformations preserve the lattice and the crystal | M_Conventional: all branches as matrices over Z; Cartesian invariance by linear algebra. |
| C33 | SC orthorhombic cells are ordered | M_Conventional oPFI/oC. |
| C34 | SC monoclinic cell is in standard setting | M_Conventional monoclinic. P_Helpers: the same for the name of the convention in any case and the tolerance of the data, or 1e-4 for the default, without the helpers of the model (also for C35). |
| C35 | Triclinic conventional cells have uniform reciprocal angles | M_Conventional triclinic: sign table of reciprocal cosines. |
| C36 | SC rhombohedral setting is reachable | M_Conventional hR. |
| C37 | Primitive cell volume matches the centring | M_Primitive + matrices tables. |
| C38 | Primitive atoms: one representative per translation class | M_Primitive _get_unique greedy selection. |
| C39 | SC variation is total and correct | M_Variation. |
| C40 | HPKOT symbol is total and known | M_Variation hpkot_get_extended_bl_symbol; criteria over the parameters of the HPKOT conventional cell. |
| C41 | Space-group tables are total and consistent | T_Tables tables; finite domain 1..230 by computation. |
| C42 | Recommended k-paths only use defined points | T_Points tables: names computed, finite domain by computation lifted to all parameter values. |
| C43 | Primed points are the inversion images | M_Path. |
| C44 | High symmetry points have distinct coordinates | F_Distinct: NoDup of the coordinates of each table of T_Points over all parameter values; P_Distinct: lifted to get_path_and_points (the maps to absolute and relative coordinates are injective), strictness from the variation criteria; P_DistinctCases: ties, crystals. |
| C45 | Plot labels identify points | T_Points HS_PLOT_NAMES; computation. |
| C46 | POSCAR dump/load round trip | M_Poscar: texts as strings, numbers formatted and parsed character by character; the round trip is a statement about the decimal rounding of each number. |
| C47 | POSCAR scale factors | M_Poscar apply_scale inside load_poscar: the same file with another scale line. |
| C48 | Undeducible species in dump_poscar | M_Poscar dump_poscar: iff for each exception. |
| C49 | Example cells are what they claim | M_ScExamples. |
| C50 | Every species can be drawn | M_Plot: int(s, 16), the gamma correction and plot_atoms; Rpower monotonicity, table by computation. |
| C51 | Plot ranges enclose the plotted objects | M_Plot: methods as lists of actions with an optional exception, ranges as a state machine over histories of calls. |
| C52 | Feeding a converted crystal back to the package | P_Feedback: M_Atoms/M_Conventional/M_Primitive with python int vs numpy int tags; composition of the conversion with each function. |
| C53 | Coordinates of recommended points | M_Path get_path_and_points, relative and absolute. |
| C54 | Drawings show the objects they are called with | M_Plot: traces added by each method (subplot, mode, points, colours, texts, legend entry). |
| C55 | Recommended k-points lie in the first Brillouin zone | S_Zone: Wigner-Seitz cell of a lattice given by its basis (all integer combinations). F_Zone*: certificates (the point is a convex combination of symmetry-equivalent bounds) per table; P_Zone: one theorem per family and convention about the values of the tables of T_Points; P_ZoneCases: crystals that meet the hypotheses of each, and the crystals of the refutations. |
| C56 | Words and numbers of a text file | S_Poscar: grammar of numerals as inductive predicates with their value; M_Poscar: parse_int/parse_float/split/readlines; P_Numerals: the parser accepts exactly the grammar. |
| C57 | load_poscar reads every file of the documented format | S_Poscar: the POSCAR grammar as a relation between lists of lines and the crystal they describe; P_PoscarFile: load_poscar on every related text; dump_poscar writes a related text. |
| C58 | Truncated POSCAR files | P_PoscarFile: every proper prefix of the needed lines is refused; witness for a cut inside a line. |
| C59 | Symmetry data of a crystal | M_Spglib get_spglib_data/validate_spglib_data with the library as an oracle record; P_SpglibData: iff for success, iff for each exception, equality of all crystal functions with and without the object. |
| C60 | lepage names the Bravais lattice of the cell | M_Lepage; specification in P_Bravais (axis_angle, clear_cut, standard, written without the model). F_Bravais: an axis is exact iff U G = k h for the metric G; G as a linear form with integer matrices, all 125 x 125 pairs decided by computation for all parameter values. F_Angles, F_Classify: angles and checks in integers. F_Mono: ranks of four lengths, all orders by computation. P_Elongated: where clear_cut fails the answer can be wrong (a 1 x 1 x 15 cell is called ORCC), because of two entries for the same axis the worse is kept. |
| C61 | HPKOT example crystals | T_Examples: the 54 POSCAR files as text; M_Examples on top of load_poscar (M_Poscar). Specification in P_Examples (distances to symmetric arrangements over R). F_Examples: a file of plain decimals is read by integer arithmetic in units of 1e-20; a boolean check in Z is proved sound for the specification and evaluated on all names. No inversion centre: the centre is fixed by the image of the first atom, so finitely many candidates with doubled tolerance suffice. |
| C62 | The logo | M_Logo: texts as lists of code points, formatting with fill and alignment; P_Logo: lines of the result for every list of entries. |
| C63 | Comparisons in double precision | M_Float: the same function on Flocq binary64 numbers (Bminus, Bplus, Bmult, Bltb); P_Float: monotonicity of rounding and the cases of infinities and nan; error bound from error_N_FLT. |
| C64 | Positions of a primitive cell in double precision | M_Float: np.round and % 1 with the rounding of each operation (Flocq, FLT format), no overflow; P_FloatPositions. |
| C65 | The table of high-symmetry points | M_Table: hs_table with the formatting written out (numbers as in M_Poscar); P_Table: the words of each line through the specification of C56, the widths by counting. |
| C66 | Which exceptions are raised | P_Errors: a small calculus of the exceptions that can leave a function, applied to load_poscar; case analysis of the calls on reachable Kpoints objects; the first check that fails for conventions and colours. |
| C67 | K-points along the path stay in the first Brillouin zone | P_ZonePath: the zone is an intersection of half-spaces, so segments between its points stay inside; combined with C22 (interpolation), C53 (absolute coordinates) and C55. |
| C68 | Results do not depend on the orientation of the crystal | P_Orientation: every step between the data and the answer commutes with a right multiplication by an orthogonal matrix (lengths, angles, reciprocal cells, integer combinations, re-expressed positions). The covariance of spglib is a hypothesis (turns_with), met by the library of C68_case. |
| C69 | Results in another unit of length | P_Units: two calls that both return are related by the change of unit (agree); every table of points is shown to depend on ratios of lengths only; two tolerances that both group the atoms give the same groups. Refuted for SC oF with a crystal. Failures differ between units (absolute tolerances), hence the condition that both calls return. |
| C70 | Names with the same letters denote equivalent points | S_Symmetry (specification: symmetry of a lattice, equivalence, letters of a name), F_SymTables (for each of the 44 tables an integer matrix per pair of points, checked against the metric of the lattice), P_Symmetry. Hypothesis: the conventional cell has the shape of its family (conventional_shape), no inequalities. |
| C71 | The path runs on the surface of the Brillouin zone unless it passes GAMMA | P_Symmetry: for each table a common plane per step of the path (F_SymTables), lifted to the returned path with and without time reversal; with C55 the steps are on the surface of the zone. |
| C72 | The vectors of a Niggli cell are the shortest ones of the lattice | F_Minima.v: integer values of the quadratic form of a reduced set of six numbers. With non-positive products the form is a sum over pairs of four numbers with non-negative weights (Selling); two thresholds on the integers give two cuts that are both paid for, so the form is at least the sum of two of seven explicit numbers. With positive products each octant is bounded by a form of the first kind. P_Minima.v: in_lattice, cross and dot state the three minima without the cell; with C12_returned_cell_reduced for get_niggli. Rounding not modelled, as in C12. |
| C73 | The Niggli cell is unique and identifies the lattice | F_NiggliUnique.v: two reduced cells of one lattice have equal lengths (C72) and the integer matrix between them has entries -1, 0, 1 (the second threshold of C72). Those matrices are finitely many; for each the conditions on both cells are refuted, or force equality, by sums with non-negative weights and case splits on the conditional conditions of the definition. The refutations are in F_NiggliCerts.v (found by a search outside Coq) and checked by a checker proved sound in F_NiggliCheck.v. P_Minima.v: for get_niggli through C11 and C12, equality of get_params iff one lattice is the other turned. |
| C74 | The answer of lepage depends on the lattice only | P_LepageLattice.v: all steps of lepage (candidate axes, sorting, removal of duplicates, angles, the six checks, the loop) commute with turning the cell, so the whole result is invariant. By C73 reduced cells of one lattice differ by an orthogonal matrix only. The external reduction is an argument; that its two answers are reduced cells of the lattice is a hypothesis. P_LepageCubic.v joins this with C60: the reduced cell is a turned copy of the documented primitive cell when that is reduced, and the angles that C60 looks at do not change when a cell is turned or scaled, so for the three cubic lattices they are checked once on integer cells. |
| C75 | lepage names every lattice after its symmetry | P_LepageKind: a Niggli cell has only 81 possible integer matrices of 180 degree rotations (F_AxesReal); the sets closed under the group operations are enumerated by a computation checked in Coq (F_Axes, F_AxesTable: 392 sets, with certificates in F_AxesData), each is conjugate to the set of one of the eleven families or is not the full set (F_AxesKinds), and on each lepage is run exactly with symbolic metric (F_Classify). The specification two_fold is about real rotations. Found: without the reduction ORCI lattices are called ORCC (`_check_orc` demands gcd > 1 of all pairs, but gcd(0, 0) = 0), C75_reversed_vector. P_LepageExact: the converse (C75_identifies, C75_exact, C75_exclusive); the kinds are told apart by properties of the axes that a change of basis keeps, sums of axis vectors modulo 2 and 3 and relations between their lengths (F_AxesExcl). |
| C76 | Which lattices lepage calls MCL, MCLC and TRI | F_MonoKinds: for each of the 81 matrices the vectors perpendicular to the axis with coefficients -1, 0, 1 are sorted for every possible order of their lengths (the middle of two vectors is shorter than the longer one, which excludes some orders) and the determinant of the code is computed. P_LepageMono: the specification (lone, layered, visible) is about real rotations and lattice vectors. Found: `_get_perpendicular_shortest` looks at coefficients up to 1 only, and IndexError is caught, so some base-centred monoclinic lattices are called TRI (C76_base_centred_refuted). |
| C77 | Kpoints objects do not disturb each other | M_KpointsHeap: a heap of name lists and objects that refer to them; the constructor keeps the list it is given, copy makes a new one. P_KpointsHeap: induction over the history with the invariant that one object holds one list alone. What an object is then comes from the calls on it only (run of C17-C20), so all theorems about one object hold for it. Found: two objects constructed from one list (C77_one_list_refuted). |
| C78 | The Niggli reduction ends | P_NiggliLoop. Exact: F_NiggliExist shows that the six numbers are always those of some cell of the lattice, that every pass which continues makes (A+B+C, weighted sum of |xi|,|eta|,|zeta|) smaller, and that only finitely many cells of a lattice lie below a bound (integer coordinates of short vectors are bounded, Cauchy-Schwarz); so the loop ends, and where it ends Niggli conditions hold. Refutations with the default tolerance: F_NiggliRun evaluates the passes with integers (units of 1e-12) and proves that the real passes do the same for every tolerance between two bounds; the cube root of the volume is enclosed by Rpower. |
| C79 | The order of the atoms does not matter | P_Order, F_Order. An order is a permutation of 0..n-1 and every attribute is put in it. Types found from names are the same because the sorted set of identifiers is. Spglib is any library whose answers are the same up to order (a hypothesis, met by a library that echoes the crystal). get_unique: the count of equivalent atoms is invariant under permutation, so both calls fail with the same exception or both succeed; every chosen atom of one is within the tolerance of a chosen atom of the other. Types of atoms of the primitive cell are compared only for the spglib convention, since atoms of different types that coincide within symprec are merged by get_unique in an order-dependent way. |
| C80 | The choice of the cell does not matter for the k-path | P_Description. same_symmetry: group, family, centring, standard lattices (in the frame of the crystal) and tolerances agree; atoms and types are free. A relational reading of every function (both return: related results) goes through all branches; for Kpoints the relation is: same names, and coordinates times the reciprocal cell agree, from which ticks, points and flat_points follow by induction over the path. That both calls return is not claimed (it depends on the attributes of the atoms). That spglib finds the same lattices is a hypothesis; the example is a crystal in an upright and a sheared cell. |
| C81 | Positions in double precision | M_FloatAtoms: the same functions as in C24-C26 with every operation rounded to double precision (Flocq rnd64; overflow left out). P_FloatAtoms: subtraction of the integer part is exact, so ensure_000 is one rounding of x - floor x. The double-precision reading corrects C25: [0,1) and idempotence hold over the reals and fail for doubles just below an integer (the docstring says [0,1]). |
| C82 | The k-path in double precision | M_FloatPath: numpy.linspace operation by operation (both formulas, the last point overwritten), row norms and the three loops, every operation rounded (Flocq rnd64, subnormal numbers included, overflow left out). The coordinates hs_coordinates[name] @ cell are an arbitrary function of the name with double values; the norm of a single vector (BLAS) is an argument. P_FloatPath: one component is monotone because rounding is; the last inner point does not pass the overwritten end because the step is larger than three roundings, or the segment is so short that its squares underflow to 0. The error of a norm is bounded through the squares, with an absolute part for underflow. |
