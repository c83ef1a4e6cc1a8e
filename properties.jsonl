{"id": "C01", "title": "Tolerance comparisons are a consistent family", "statement": "For compare_with_tolerance(x, cond, y, eps): '<' and '>=' always give opposite answers, as do '>' and '<=', and '==' and '!='; if eps >= 0 exactly one of '<', '==', '>' holds; '==' with explicit eps is exactly |x-y| <= eps; an unknown condition raises ValueError for every x, y. With eps < 0 trichotomy is lost (both '<' and '>' can hold).", "quantifier": "all real x, y, eps, rtol, atol and all condition strings", "why_tests_cant": "The claim is about every triple of reals including the boundary x = y +- eps; sampled floats never hit all boundaries.", "anchors": ["src/wulfric/_numerical.py: compare_with_tolerance"]}
{"id": "C02", "title": "Symmetry and transitivity limits of tolerant equality", "statement": "With explicit eps '==' is symmetric and reflexive; with the default relative tolerance it is NOT symmetric (a witness exists), and it is never transitive for eps > 0. The order '<' is transitive for eps >= 0.", "quantifier": "all real x, y, z, eps >= 0; existence of witnesses for the negative part", "why_tests_cant": "Asymmetry only appears in a band of relative width 1e-5; transitivity ranges over all triples.", "anchors": ["src/wulfric/_numerical.py: compare_with_tolerance"]}
{"id": "C03", "title": "get_volume call forms agree and are a volume", "statement": "get_volume(cell) = get_volume(v1, v2, v3) for the rows of the cell, and both are |v1.(v2 x v3)|: never negative, zero exactly for linearly dependent vectors, multiplied by |k| when one vector is multiplied by k, unchanged by every integer change of basis with determinant +-1. The form with six parameters gives the volume of every cell that has these parameters. Any other number of arguments raises ValueError.", "quantifier": "all real 3x3 matrices, all admissible (a,b,c,alpha,beta,gamma)", "why_tests_cant": "An algebraic identity over a continuum of inputs.", "anchors": ["src/wulfric/geometry/_geometry.py: get_volume"]}
{"id": "C04", "title": "get_angle is a metric angle", "statement": "get_angle(v1, v2) succeeds exactly when both vectors are longer than 2^-52, otherwise raises ValueError; the result is the only angle in [0, 180] degrees with cos(angle)*|v1|*|v2| = v1.v2, is symmetric, is unchanged by positive rescaling of a vector, becomes 180 - angle when one vector is negated, and the radians form is the degrees form times pi/180.", "quantifier": "all pairs of real 3-vectors, all positive scale factors", "why_tests_cant": "Holds on a 6-dimensional continuum, including (anti)parallel pairs where the clipping branch matters.", "anchors": ["src/wulfric/geometry/_geometry.py: get_angle"]}
{"id": "C05", "title": "parallelepiped_check decides realisability", "statement": "parallelepiped_check(a, b, c, alpha, beta, gamma) answers the same for every simultaneous permutation of (a, alpha), (b, beta), (c, gamma); with zero tolerances it answers True exactly when a non-degenerate cell with these parameters exists; with any tolerances True implies that such a cell exists and False for an existing cell means that a length, an angle, or the excess of an angle inequality is within the tolerance; with raise_error=True it raises ValueError exactly when it would answer False.", "quantifier": "all six-tuples of reals and both error modes", "why_tests_cant": "The boundary of the admissible region is a surface; tests sample isolated points of it.", "anchors": ["src/wulfric/geometry/_geometry.py: parallelepiped_check", "src/wulfric/cell/_basic_manipulation.py: from_params"]}
{"id": "C06", "title": "from_params / get_params round trip", "statement": "from_params accepts exactly the parameters with lengths above 1e-8, angles above 1e-4 degrees and all four angle inequalities fulfilled by more than 1e-4 degrees, and raises ValueError on all others; for every accepted set get_params(from_params(...)) gives the same six numbers back, the cell is right-handed, its first vector is along x and its second in the xy plane. Conversely, for every non-degenerate cell with accepted parameters from_params(get_params(cell)) is the same cell up to an isometry.", "quantifier": "all real six-tuples; all non-singular real 3x3 cells", "why_tests_cant": "Needs trigonometric identities for a continuum of angles.", "anchors": ["src/wulfric/cell/_basic_manipulation.py: from_params, get_params"]}
{"id": "C07", "title": "get_spherical inverts spherical coordinates", "statement": "For every non-zero vector, polar axis and zero line perpendicular to it, get_spherical returns r = |v|, a polar angle in [0, 180] and an azimuth in [0, 360), and the vector is recovered from the three numbers unless it points along the axis within the tolerance of numpy.allclose, where (0, 0) and (180, 180) are returned. Refuted for a polar axis parallel to the default zero line: two different vectors get the same coordinates.", "quantifier": "all real 3-vectors and polar axes", "why_tests_cant": "Quadrant logic must be right on all half-planes and axes.", "anchors": ["src/wulfric/geometry/_geometry.py: get_spherical"]}
{"id": "C08", "title": "Reciprocal cell duality", "statement": "For every non-singular cell, rows of get_reciprocal(cell) satisfy b_i . a_j = 2*pi*delta_ij, get_reciprocal is an involution, det(rcell)*det(cell) = (2*pi)^3; singular cells raise.", "quantifier": "all real 3x3 matrices", "why_tests_cant": "Identity over a 9-dimensional continuum.", "anchors": ["src/wulfric/cell/_basic_manipulation.py: get_reciprocal"]}
{"id": "C09", "title": "Transformation matrix reproduces the transformed cell", "statement": "For every non-singular original cell and every transformed cell, M = get_transformation_matrix(original, transformed) satisfies transformed = M^T @ original, M is the only such matrix, and relative positions transform covariantly so that Cartesian positions are unchanged.", "quantifier": "all pairs of real 3x3 matrices", "why_tests_cant": "Uniqueness and covariance quantify over all matrices.", "anchors": ["src/wulfric/cell/_basic_manipulation.py: get_transformation_matrix"]}
{"id": "C10", "title": "Scalar products are the off-diagonal Gram entries", "statement": "get_scalar_products(cell) returns (b.c, a.c, a.b) and, together with lengths, determines get_params: cos(alpha)*b*c = b.c etc.; invariant under every isometry of space.", "quantifier": "all real cells and all orthogonal matrices", "why_tests_cant": "Continuum of inputs.", "anchors": ["src/wulfric/cell/_basic_manipulation.py: get_scalar_products, get_params"]}
{"id": "C11", "title": "Niggli reduction keeps the lattice", "statement": "get_niggli(cell, implementation='wulfric') either raises or returns a cell whose rows are an integer unimodular combination of the input rows, so both generate exactly the same lattice and have the same |volume|, for every tolerance and every iteration limit.", "quantifier": "all real cells, all eps_relative, all max_iterations", "why_tests_cant": "The number of algorithm steps is data-dependent and unbounded; every interleaving of the eight steps must preserve the lattice.", "anchors": ["src/wulfric/cell/_niggli.py: get_niggli, _niggli_step_1 .. _niggli_step_8"]}
{"id": "C12", "title": "Niggli reduction returns a Niggli-reduced cell", "statement": "When get_niggli('wulfric') returns, the internally tracked parameters meet every Niggli condition within tolerance (A <= B <= C, |xi| <= B, |eta| <= A, |zeta| <= A, type I/II signs, sum condition and the special equalities). If all scalar products of the vectors are multiples of a number q larger than the tolerances (as for integer cells) then the returned cell itself is exactly Niggli-reduced and generates the same lattice, and for every non-degenerate such cell the call succeeds when max_iterations is at least an explicit polynomial in the squared lengths. Refuted without it: for a slightly oblique cell the tracked parameters do not describe the returned cell, which has longer vectors than the input.", "quantifier": "all cells on which the loop exits; all non-degenerate cells with scalar products on a grid; existence of the witness", "why_tests_cant": "Loop-exit condition over arbitrary iteration histories.", "anchors": ["src/wulfric/cell/_niggli.py: get_niggli"]}
{"id": "C13", "title": "Niggli loop is bounded and fails loudly", "statement": "get_niggli('wulfric') performs at most max_iterations+1 passes; it never returns a cell after exhausting the bound but raises NiggliReductionFailed; zero volume and unknown implementation raise ValueError before any work.", "quantifier": "all cells, all integer max_iterations, all implementation strings", "why_tests_cant": "Termination over all inputs.", "anchors": ["src/wulfric/cell/_niggli.py: get_niggli"]}
{"id": "C14", "title": "Lattice points enumeration is exact", "statement": "get_lattice_points(cell, (n1,n2,n3)) lists exactly the points r with -n_i <= r_i <= n_i, each once, (2n1+1)(2n2+1)(2n3+1) many, closed under inversion, in lexicographic order; the centre of the flat list is the origin; relative@cell equals the absolute output.", "quantifier": "all cells and all non-negative ranges", "why_tests_cant": "Unbounded range of n.", "anchors": ["src/wulfric/cell/_voronoi.py: get_lattice_points"]}
{"id": "C15", "title": "Voronoi cell output is a well-formed graph", "statement": "For every answer of the Voronoi library that is well formed, the edges returned by get_wigner_seitz_cell refer to existing returned vertices, no edge appears twice or reversed, every returned vertex is used, and the edges are exactly the edges of the walls between the origin and its neighbours; it fails exactly if there is no such wall (IndexError) or scipy is missing (ImportError); get_brillouin_zone is the same for the dual basis. If the library's vertices are Voronoi vertices of the points it is given, every returned vertex is at least as close to the origin as to all lattice points of the window -10..10. The window is large enough, i.e. every returned vertex is in the Wigner-Seitz cell of the whole lattice, whenever the cell is an integer combination with small coefficients (column sums at most 10) away from one whose vectors cannot be shortened by one another; in particular for every cell returned by get_niggli. Refuted: that the window is always large enough (a skew cell with a vertex outside the Wigner-Seitz cell).", "quantifier": "all ridge lists / vertex lists an external Voronoi routine could produce", "why_tests_cant": "Ranges over every possible oracle output.", "anchors": ["src/wulfric/cell/_voronoi.py: _get_voronoi_cell"]}
{"id": "C16", "title": "LePage classification terminates with a valid answer", "statement": "lepage(cell) makes at most (number of candidate axes)+1 passes, and every intermediate and the final answer is one of the 14 Bravais lattice names; the candidate axes are the lattice directions with indices in -2..2 whose angle with a plane normal with indices in -2..2 (scalar product of the indices +-1 or +-2) is below the limit, all of those with scalar product +-2, without parallel duplicates, sorted by that angle; the final answer is the classification of the axes within the tolerance, TRI if there are none; every way to fail is listed. The cell that is classified is the Niggli-reduced one (relative tolerance 1e-5), the given one if the reduction fails or is not wanted; without spglib ImportError is raised. Refuted: that an answer always exists (a cell of a primitive orthorhombic lattice for which UnboundLocalError is raised).", "quantifier": "all cells, tolerances and limits, with or without the Niggli reduction", "why_tests_cant": "Termination for arbitrary axis sets and tolerances.", "anchors": ["src/wulfric/_lepage.py: lepage"]}
{"id": "C17", "title": "k-path string/list round trip", "statement": "get_path_as_string(get_path_as_list(s)) = s for every string s accepted by get_path_as_list; conversely get_path_as_list(get_path_as_string(p)) = p for every list of sub-paths with at least two names free of '-' and '|'. Any sub-path with fewer than two names (including the empty string) raises ValueError.", "quantifier": "all strings; all lists of lists of strings", "why_tests_cant": "Strings of unbounded length.", "anchors": ["src/wulfric/kpoints/_path_and_points.py: get_path_as_list, get_path_as_string"]}
{"id": "C18", "title": "Kpoints state stays consistent under any history", "statement": "After any sequence of add_hs_point, remove_hs_point, path assignment and n assignment on a Kpoints object with distinct names, names, coordinates and labels have exactly the same keys without duplicates, every sub-path has at least two names, and every name of the path is a known point or was removed; a failing call changes nothing; each operation has exactly its documented effect; hs_table has one row per point. Refuted: that n stays non-negative (it is never checked and points() then raises ValueError); the same for duplicate names given to the constructor; the same when the caller keeps and changes the list of names that was passed in (the object shares it).", "quantifier": "all finite histories of API calls, including failing calls", "why_tests_cant": "Histories are unbounded.", "anchors": ["src/wulfric/_kpoints_class.py: Kpoints"]}
{"id": "C19", "title": "Removing a point may break a path (and only then)", "statement": "labels/ticks/points/flat_points succeed whenever every name of the path is still a known point; after remove_hs_point of a point used by the path they raise KeyError (witness).", "quantifier": "all reachable Kpoints states", "why_tests_cant": "Histories are unbounded; negative part needs a reachable witness.", "anchors": ["src/wulfric/_kpoints_class.py: Kpoints.remove_hs_point, Kpoints.path"]}
{"id": "C20", "title": "Kpoints output sizes agree", "statement": "For every reachable state with a non-empty known path and n >= 0: len(labels) = len(ticks) = 1 + sum(len(subpath)-1), len(points) = len(flat_points) = (n+2)*sum(len(subpath)-1); the labels are those of the path, with the two labels joined by '|' where one sub-path ends and the next begins. Refuted for the empty path: labels is empty and points is None.", "quantifier": "all reachable states, all n >= 0", "why_tests_cant": "Unbounded path length and n.", "anchors": ["src/wulfric/_kpoints_class.py: labels, ticks, points, flat_points"]}
{"id": "C21", "title": "Flat coordinates are monotone and aligned with ticks", "statement": "ticks() and flat_points() start at 0 and are non-decreasing; the i-th segment of flat_points runs exactly from ticks[i] to ticks[i+1]; the difference of consecutive values within a segment equals the Cartesian distance of the corresponding points.", "quantifier": "all Kpoints states with valid path, relative and absolute mode", "why_tests_cant": "Sum over unbounded number of segments.", "anchors": ["src/wulfric/_kpoints_class.py: ticks, flat_points, points"]}
{"id": "C22", "title": "Generated k-points interpolate the path", "statement": "points() lists for each segment n+2 equally spaced points starting exactly at the first and ending exactly at the second high-symmetry point; relative points times rcell are the absolute points.", "quantifier": "all Kpoints states with valid path, all n", "why_tests_cant": "Unbounded n and path.", "anchors": ["src/wulfric/_kpoints_class.py: points"]}
{"id": "C23", "title": "shift_atoms centres the structure rigidly", "statement": "After shift_atoms, (min+max)/2 of every relative coordinate equals the gravity point (converted through the cell when given in absolute form), and all pairwise differences of positions are unchanged; the result is the same when applied twice.", "quantifier": "all non-empty atom lists, gravity points and non-singular cells", "why_tests_cant": "Unbounded number of atoms.", "anchors": ["src/wulfric/crystal/_basic_manipulation.py: shift_atoms"]}
{"id": "C24", "title": "cure_negative shifts minimally and rigidly", "statement": "After cure_negative every relative coordinate is >= 0, all pairwise differences are unchanged, axes that were already non-negative are not moved and otherwise the minimum becomes exactly 0; a second application changes nothing. A single atom given as a plain python list raises TypeError.", "quantifier": "all non-empty atom lists", "why_tests_cant": "Unbounded number of atoms.", "anchors": ["src/wulfric/crystal/_basic_manipulation.py: cure_negative"]}
{"id": "C25", "title": "ensure_000 maps into the origin cell by lattice vectors", "statement": "After ensure_000 every relative coordinate is in [0,1), differs from the old one by an integer, and the call is idempotent; atoms differing by lattice vectors become equal. (For real coordinates; C81 says what is left of it in double precision.)", "quantifier": "all atom lists with real coordinates", "why_tests_cant": "int() truncation must be right for negative, integer and fractional inputs of any size.", "anchors": ["src/wulfric/crystal/_basic_manipulation.py: ensure_000"]}
{"id": "C26", "title": "get_vector / get_distance algebra", "statement": "get_vector(a1,a2,R) = -get_vector(a2,a1,-R), is additive along chains of atoms, equals relative vector times cell; get_distance is symmetric under the same swap, non-negative, zero iff atoms coincide (non-singular cell), satisfies the triangle inequality and is invariant under shift_atoms.", "quantifier": "all cells, atom lists, atom indices, lattice vectors R", "why_tests_cant": "Continuum of inputs; chains of atoms.", "anchors": ["src/wulfric/crystal/_basic_manipulation.py: get_vector, get_distance"]}
{"id": "C27", "title": "Species deduction is sound", "statement": "get_atom_species returns an element of ATOM_SPECIES whose letters occur in the letters of the name, in any case, exactly if there is one; otherwise 'X', or FailedToDeduceAtomSpecies if asked to raise. A two-letter symbol wins over every one-letter symbol; among two-letter symbols the first of the table wins, among one-letter symbols the last; a symbol with no other letters around it is always recognised; case does not matter. Refuted: that the symbol at the start of the name wins.", "quantifier": "all strings", "why_tests_cant": "Names are arbitrary strings.", "anchors": ["src/wulfric/crystal/_atoms.py: get_atom_species, get_atoms_species"]}
{"id": "C28", "title": "get_unique_names returns unique names", "statement": "The result of get_unique_names has the length of the input, with the documented suffix on each name (position for 'all', occurrence number for repeated names for 'repeated-only'), and is the input if the names are already unique; the names are pairwise distinct if no name ends with a digit; a second call on distinct names changes nothing; any other strategy raises ValueError and 'repeated-only' on a tuple with repetitions TypeError. Refuted: uniqueness in general, for both strategies; and that the caller's list is left alone ('repeated-only' overwrites it).", "quantifier": "all lists of names, both strategies", "why_tests_cant": "Collision depends on the interplay of arbitrary names with decimal numerals.", "anchors": ["src/wulfric/crystal/_atoms.py: get_unique_names"]}
{"id": "C29", "title": "validate_atoms error modes agree", "statement": "validate_atoms accepts exactly the dictionaries that have all required keys, values with a length, all of the same length, positions of shape (N, 3), names and species of strings, species from the table, and types that are integers not below 1 (each checked if present); raise_errors=False returns False exactly when raise_errors=True raises, and the exception is TypeError exactly if some value has no length, otherwise ValueError. Refuted: that positions are numeric (strings and None pass); that an empty structure is valid.", "quantifier": "all atoms dictionaries (any combination of present/absent/ill-typed keys), all options", "why_tests_cant": "Combinatorially many dictionaries.", "anchors": ["src/wulfric/crystal/_crystal_validation.py: validate_atoms"]}
{"id": "C30", "title": "spglib types encode equality of identifiers", "statement": "get_spglib_types returns the given types if present; otherwise numbers 1..k without gaps, one per atom, equal exactly for equal identifiers and increasing with the identifiers in string order, where the identifier is the species or, without species, the species deduced from the name, or the name itself if none can be deduced; the numbers depend only on the set of identifiers, not on the order of atoms; ValueError if there is neither.", "quantifier": "all atoms dictionaries", "why_tests_cant": "Unbounded atom lists.", "anchors": ["src/wulfric/_spglib_interface.py: get_spglib_types"]}
{"id": "C31", "title": "Attribute-style dictionary round trip", "statement": "add_sugar followed by remove_sugar gives a dictionary with the same items in the same order, and both return new objects: no change of the copy is seen by the original. Attribute get, set and delete act like item get, set and delete in every history, except for reads of keys that begin with two underscores or are names of dict methods (the method is returned, whatever the dictionary holds). A read of a missing key raises AttributeError, a deletion KeyError. Anything that is no dictionary raises ValueError.", "quantifier": "all dictionaries with string keys, histories of attribute operations", "why_tests_cant": "Arbitrary keys and histories.", "anchors": ["src/wulfric/_syntactic_sugar.py: SyntacticSugar, add_sugar, remove_sugar"]}
{"id": "C32", "title": "Conventional cell transformations preserve the lattice and the crystal", "statement": "get_conventional returns an integer combination, with determinant 1, of the vectors of the cell reported by spglib (+-1 where a Niggli reduction by spglib is used): the lattice, the volume and the set of typed Cartesian atom positions modulo the lattice are unchanged, for every convention and every branch of every crystal family; so if spglib's answer describes the input crystal then the result does. Every other per-atom property is that of the last original atom of the same type. The names of the conventions are case-insensitive, any other raises ConventionNotSupported; a data object made with the default tolerances gives the same result as none.", "quantifier": "all cells, atoms, answers of spglib, conventions, branches", "why_tests_cant": "Tens of branches each over continuum of cells.", "anchors": ["src/wulfric/crystal/_conventional.py: get_conventional"]}
{"id": "C33", "title": "SC orthorhombic cells are ordered", "statement": "For orthorhombic lattices get_conventional(convention='SC') returns lengths a < b < c for P, F and I and a < b for C and A (where A is turned into C), keeping the cell right angled, and raises PotentialBugError exactly if the lengths to be ordered are not all different. Refuted: that every orthorhombic crystal has an SC conventional cell (equal lengths).", "quantifier": "all orthorhombic cells", "why_tests_cant": "All six orderings and ties.", "anchors": ["src/wulfric/crystal/_conventional.py: _sc_get_conventional_oPFI, _sc_get_conventional_oC"]}
{"id": "C34", "title": "SC monoclinic cell is in standard setting", "statement": "For monoclinic crystals the SC conventional cell has beta and gamma within the angle tolerance of 90 degrees, alpha not above 90 degrees by more than it and, for primitive centring, b <= c; PotentialBugError is raised exactly if the cell from spglib is not a monoclinic cell in a position the code knows.", "quantifier": "all monoclinic cells (unique axis anywhere)", "why_tests_cant": "All unique-axis positions over continuum of lengths/angles.", "anchors": ["src/wulfric/crystal/_conventional.py: _sc_get_conventional_m"]}
{"id": "C35", "title": "Triclinic conventional cells have uniform reciprocal angles", "statement": "For triclinic crystals the conventional cells of both conventions have reciprocal angles that are all below 90 degrees or all not below; SC additionally makes gamma* the one closest to 90 degrees, HPKOT makes the scalar product of the first two reciprocal vectors the smallest in absolute value; the internal-error branches are unreachable.", "quantifier": "all non-singular cells", "why_tests_cant": "Sign patterns over all lattices.", "anchors": ["src/wulfric/crystal/_conventional.py: _hpkot_get_conventional_a, _sc_get_conventional_a"]}
{"id": "C36", "title": "SC rhombohedral setting is reachable", "statement": "For rhombohedral crystals the SC conventional cell has three equal lengths and three equal angles within the tolerances; PotentialBugError is raised exactly if the primitive cell from spglib has neither equal angles nor an odd angle in one of the two positions that are handled. Refuted: the third position (beta is the odd angle) is never repaired, although flipping one vector would do (the code tests the same condition twice).", "quantifier": "all rhombohedral cells in the three permuted settings", "why_tests_cant": "Dead branch is not reachable by the maintained examples.", "anchors": ["src/wulfric/crystal/_conventional.py: _sc_get_conventional_hR"]}
{"id": "C37", "title": "Primitive cell volume matches the centring", "statement": "The lattice of get_primitive is the conventional lattice together with the centring translations of its centring symbol, so its volume is the conventional one divided by 1, 2 (A, C, I), 4 (F) or 3 (R in the hexagonal setting); for 'spglib' it is the primitive cell of spglib. Refuted for HPKOT hR: the stored matrix has determinant 9/8, the primitive cell is larger than the conventional one and its lattice does not contain the conventional lattice, for every such crystal.", "quantifier": "all conventional cells, all Bravais lattices, both conventions", "why_tests_cant": "Determinant identity over all cells.", "anchors": ["src/wulfric/crystal/_primitive.py: get_primitive", "src/wulfric/constants/_hpkot_convention.py: HPKOT_CONVENTIONAL_TO_PRIMITIVE", "src/wulfric/constants/_sc_convention.py: SC_CONVENTIONAL_TO_PRIMITIVE"]}
{"id": "C38", "title": "Primitive atoms: one representative per translation class", "statement": "get_primitive returns atoms in the unit cell, each standing for a conventional atom of the same type up to a lattice vector and the rounding to 8 decimals, every conventional atom is represented within symprec, and no two returned atoms are within symprec; their number is the number of conventional atoms divided by the number of centring points whenever closeness is transitive among the atoms; other properties are those of the first original atom of the same type. Refuted: get_conventional uses the last atom of the type, so the two disagree; and an atom numerically just below a cell boundary is not matched with its translate (ValueError).", "quantifier": "all cells, atoms, answers of spglib, conventions", "why_tests_cant": "Unbounded number of atoms, wrap-around at the cell boundary.", "anchors": ["src/wulfric/crystal/_primitive.py: _get_unique, get_primitive"]}
{"id": "C39", "title": "SC variation is total and correct", "statement": "sc_get_variation returns exactly one documented variation: BCT1/BCT2 by c < a or a < c; ORCF1/2/3 by the sign of 1/a^2 - 1/b^2 - 1/c^2 beyond symprec; RHL1/2 by alpha below or above 90; MCLC1-5 by the reciprocal angle k_gamma and b cos(alpha)/c + b^2 sin^2(alpha)/a^2; TRI1a/1b/2a/2b by the reciprocal angles, all within the angle tolerance; a fixed name for the other lattices; ValueError exactly on the boundary for BCT (a = c), RHL (90), TRI and unseparated ORCF lengths. Refuted: that every tetragonal crystal has a variation.", "quantifier": "all crystals, tolerances", "why_tests_cant": "Continuous classification with tolerance boundaries.", "anchors": ["src/wulfric/crystal/_sc_variation.py: sc_get_variation"]}
{"id": "C40", "title": "HPKOT symbol is total and known", "statement": "hpkot_get_extended_bl_symbol returns for every Bravais lattice exactly the documented symbol: by the space group for cubic and hexagonal lattices, by c <= a for tI, by the inverse squares for oF, by the largest edge for oI, by the two edges of the face for oC and oA, by 3a^2 <= 2c^2 for hR, by b <= a sin(beta) and the documented sum for mC, by the reciprocal angles for aP; the symbol is in the documented list and begins with the Bravais lattice; the internal error is unreachable.", "quantifier": "all crystals and space groups", "why_tests_cant": "Every branch with equalities must be covered.", "anchors": ["src/wulfric/crystal/_hpkot_extended_bl_symbol.py", "src/wulfric/constants/_hpkot_convention.py"]}
{"id": "C41", "title": "Space-group tables are total and consistent", "statement": "For every space group 1..230 the crystal family and centring combine to one of the 15 Bravais lattice symbols known to every downstream table (SC names, both conversion matrices); inversion flag is defined; groups outside 1..230 have no entry.", "quantifier": "all 230 space groups", "why_tests_cant": "Finite but must be cross-consistent with all downstream tables.", "anchors": ["src/wulfric/constants/_space_groups.py", "src/wulfric/constants/_bravais_lattices.py", "src/wulfric/_spglib_interface.py: SpglibData"]}
{"id": "C42", "title": "Recommended k-paths only use defined points", "statement": "For every crystal the recommended path parses, every name in it (including the '_P' names for crystals without inversion) is a key of the returned points, GAMMA is among them, names do not repeat, and each has a plot label; Kpoints.from_crystal then succeeds with exactly these points, labels and path. Refuted for the convention 'spglib', which other functions accept: no path is ever returned.", "quantifier": "all crystals, both conventions, with and without time reversal", "why_tests_cant": "Combination of string processing with 54 tables.", "anchors": ["src/wulfric/kpoints/_path_and_points.py: get_path_and_points", "src/wulfric/kpoints/_hpkot_points.py", "src/wulfric/kpoints/_sc_points.py", "src/wulfric/constants/_kpoints.py: HS_PLOT_NAMES"]}
{"id": "C43", "title": "Primed points are the inversion images", "statement": "With inversion in the space group, with_time_reversal makes no difference. Without it and without time reversal, every point X other than GAMMA gets a point X_P = -X, the path is followed by the same path with primed names (GAMMA stays GAMMA), and nothing else is added.", "quantifier": "all crystals, both conventions", "why_tests_cant": "All tables over continuum of parameters.", "anchors": ["src/wulfric/kpoints/_path_and_points.py: get_path_and_points"]}
{"id": "C44", "title": "High symmetry points have distinct coordinates", "statement": "Two names returned by get_path_and_points(with_time_reversal=True) never stand for the same point of reciprocal space. Proved for every crystal family and both conventions, for every conventional cell that is not exactly on the boundary between two variations (tI: a differs from c; oF: no inverse square is the sum of the two others; oI: one largest edge; oC, oA: the two edges of the centred face differ; hR: 3a^2 differs from 2c^2; monoclinic: an oblique angle and shortest vectors, b differs from a sin(beta); SC: only ORCF3, MCLC2 and MCLC4, which are chosen within a tolerance, need a side). Refuted: HPKOT aP2, where Z is GAMMA for every crystal, and on the boundaries, with a crystal each for tI (a = c: M is Z0) and ORCF3 (T is X1).", "quantifier": "all crystals, both conventions, relative and absolute coordinates", "why_tests_cant": "Parameters range over a continuum.", "anchors": ["src/wulfric/kpoints/_hpkot_points.py", "src/wulfric/kpoints/_sc_points.py"]}
{"id": "C45", "title": "Plot labels identify points", "statement": "Within the points of one crystal, different names have different plot labels. Over the whole table the only shared label is that of F3 and F4 (and F3_P, F4_P), which refutes that labels are distinct.", "quantifier": "all crystals; all pairs of names", "why_tests_cant": "Needs all pairs; tests use few.", "anchors": ["src/wulfric/constants/_kpoints.py: HS_PLOT_NAMES"]}
{"id": "C46", "title": "POSCAR dump/load round trip", "statement": "load_poscar(dump_poscar(cell, atoms)) returns every number rounded to the requested decimals, in both modes (Cartesian: for a non-singular written cell), the species, the comment (stripped), and the atoms sorted by species in alphabetical order and in the original order within a species; numbers with no more decimals come back exactly; a second round trip changes nothing; going through a file with universal newlines makes no difference if there is no carriage return in the comment (refuted otherwise: ValueError).", "quantifier": "all cells, atoms with words as species, comments, decimals, both modes", "why_tests_cant": "Unbounded number of atoms and interleavings of species.", "anchors": ["src/wulfric/io/_vasp.py: load_poscar, dump_poscar"]}
{"id": "C47", "title": "POSCAR scale factors", "statement": "A single positive scale factor multiplies the cell and leaves relative positions; three equal positive factors do the same; two, four or more factors and non-positive ones among three are refused. Refuted: a negative factor must give the volume |s| but gives |s|^3/V^2, right only if |s| = V; three factors that differ change the relative positions of a Cartesian file.", "quantifier": "all files, scale factors and cells", "why_tests_cant": "Continuum of inputs; unit factors hide the defect.", "anchors": ["src/wulfric/io/_vasp.py: load_poscar"]}
{"id": "C48", "title": "Undeducible species in dump_poscar", "statement": "dump_poscar without species raises KeyError for names from which no species can be deduced if the dictionary has no key 'name' (refuting the documented ValueError, which is raised if it happens to have such a key); a list of species or names shorter than the positions raises IndexError, a longer one is silently cut; missing positions, or names and species, raise KeyError; an unknown mode ValueError.", "quantifier": "all cells and atoms dictionaries", "why_tests_cant": "Error path.", "anchors": ["src/wulfric/io/_vasp.py: dump_poscar"]}
{"id": "C49", "title": "Example cells are what they claim", "statement": "sc_get_example accepts exactly the documented names, in any case, with a right-handed cell for each, and raises ValueError for all other arguments (so that four branches of the code can never be reached); the constructors SC_* produce, for every admissible parameter, a cell whose conventional cell has the documented lengths and angles and the documented centring and volume; the example cells of the variations meet the criterion of their variation. Refuted: the TRI1a example cell as returned does not have the all-obtuse reciprocal angles of its variation.", "quantifier": "all strings; all parameter values of the SC_* constructors", "why_tests_cant": "Continuum of parameters.", "anchors": ["src/wulfric/cell/_sc_examples.py"]}
{"id": "C50", "title": "Every species can be drawn", "statement": "plot_atoms without colours draws every set of atoms whose species are in the table, each in the colour of its species (refuted for Pd and Er, whose entries are too short to be read: ValueError). The text is black on colours lighter than the middle grey and white on the others; a lighter colour never gets the lighter text; greys switch at #808080. Colours given as one string, or by name, are always refused (refuted against the documentation).", "quantifier": "all species, all colours #RRGGBB, all atoms dictionaries", "why_tests_cant": "Continuum of lightness, table-wide claim, all dictionaries.", "anchors": ["src/wulfric/constants/_atoms.py: ATOM_COLORS", "src/wulfric/_plotly_engine.py: _get_good_contrast, PlotlyEngine.plot_atoms"]}
{"id": "C51", "title": "Plot ranges enclose the plotted objects", "statement": "After any sequence of plotting calls, including failing ones, the range kept for each subplot is the smallest box around everything drawn there, and it never shrinks; the shown axes have equal scale along x, y, z and contain every drawn point if the box contains the origin. Refuted: plot_kpath reports only its last sub-path; a box that does not contain the origin is cut; a flat picture has no aspect ratio; an empty path raises UnboundLocalError.", "quantifier": "all histories of plotting calls", "why_tests_cant": "Unbounded histories.", "anchors": ["src/wulfric/_plotly_engine.py: PlotlyEngine._update_range, _update_fig_aspect_range, show, plot_kpath"]}
{"id": "C52", "title": "Feeding a converted crystal back to the package", "statement": "Let new be the atoms dictionary returned by get_conventional or get_primitive, under any convention. If the input atoms carried explicit 'spglib_types' then validate_atoms accepts new in both error modes, for every list of required keys that new has, and get_spglib_types(new) returns exactly new['spglib_types']. If the input atoms carried no 'spglib_types' (only names or species), then new has types that are numpy integers and every function that takes a crystal refuses it with ValueError: validate_atoms, get_spglib_types, get_atoms_species, get_spglib_data, get_conventional, get_primitive, get_path_and_points and the two classifications. So two default calls can not be chained.", "quantifier": "all cells, atoms dictionaries, data returned by spglib, conventions, both conversions, all functions called next", "why_tests_cant": "An interaction between the value types written by one call and those accepted by the next, for every input.", "anchors": ["src/wulfric/crystal/_primitive.py: get_primitive", "src/wulfric/crystal/_conventional.py: get_conventional", "src/wulfric/crystal/_crystal_validation.py: validate_atoms", "src/wulfric/_spglib_interface.py: get_spglib_types"]}
{"id": "C53", "title": "Coordinates of recommended points", "statement": "Whenever get_path_and_points(..., relative=True) succeeds, the call with relative=False returns the same path and the same names, and the absolute coordinates are exactly the relative ones times the reciprocal cell of the cell given by the caller; relative=True never fails when relative=False succeeds with a non-singular given cell.", "quantifier": "all crystals, conventions, both values of with_time_reversal", "why_tests_cant": "The relation mixes the primitive cell of the convention with the user's cell, over a continuum of cells.", "anchors": ["src/wulfric/kpoints/_path_and_points.py: get_path_and_points"]}
{"id": "C54", "title": "Drawings show the objects they are called with", "statement": "A plotting call only adds to its own subplot. plot_cell draws exactly the 12 edges of the parallelepiped, plot_wigner_seitz_cell and plot_brillouin_zone exactly the edges of the computed graph moved by the shift, plot_kpath one line per sub-path through the absolute positions of its points, plot_kpoints the requested named points, plot_lattice every lattice point of the range. A successful call adds exactly one legend entry if it was given a label and none otherwise.", "quantifier": "all cells, shifts, k-paths, ranges, labels, and all states of the figure", "why_tests_cant": "Continuum of cells and unbounded paths; legend entries depend on the control flow of loops.", "anchors": ["src/wulfric/_plotly_engine.py: PlotlyEngine"]}
{"id": "C55", "title": "Recommended k-points lie in the first Brillouin zone", "statement": "Every high-symmetry point that get_path_and_points recommends is in the closed first Brillouin zone of the crystal: it is at least as close to the origin as to every other reciprocal lattice point of the primitive cell of the convention. Proved for the conventional cell of the documented shape for every family: HPKOT cubic, tetragonal, orthorhombic, hexagonal, rhombohedral, monoclinic and triclinic (the last for a reduced reciprocal cell); SC cubic, tetragonal, orthorhombic, hexagonal, rhombohedral, monoclinic (except F3 of MCLC1 and MCLC2) and triclinic (under inequalities on the angles, for TRI1b, TRI2a and TRI2b). Refuted, with a crystal each: HPKOT oF with the b axis shortest (point Y), SC MCLC1 point F3, SC TRI1b point N. HPKOT aP2 point Z coincides with a reciprocal lattice point. For HPKOT hR the primitive cell returned is not that of the crystal (C37): in the zone of the crystal itself every point is at 2/3 of its documented place, and none but GAMMA is on the surface.", "quantifier": "all crystals with a conventional cell of the documented shape, all variations, all points of the table", "why_tests_cant": "The distance inequality must hold against infinitely many reciprocal lattice points, for a continuum of cells.", "anchors": ["src/wulfric/kpoints/_hpkot_points.py", "src/wulfric/kpoints/_sc_points.py", "src/wulfric/kpoints/_path_and_points.py: get_path_and_points"]}
{"id": "C56", "title": "Words and numbers of a text file", "statement": "In load_poscar, a word is read as an integer exactly when it is an optional sign and decimal digits (single underscores between digits allowed) and then with the value of the numeral; as a float exactly when it is a decimal numeral with optional sign, fraction and exponent, with its exact decimal value, or one of the spellings of inf and nan; any other word raises ValueError. Lines are cut at \\n, \\r\\n and \\r, and words are the maximal runs of characters that are not blanks.", "quantifier": "all strings", "why_tests_cant": "Infinitely many spellings; a grammar and a parser have to agree on every string.", "anchors": ["src/wulfric/io/_vasp.py: load_poscar"]}
{"id": "C57", "title": "load_poscar reads every file of the documented format", "statement": "Every file that follows the POSCAR grammar (comment, one or three scale factors, three vectors, optional species names, counts, optional selective dynamics, mode, one line per atom, in any spacing and spelling of the numbers, and any text after the last atom) is read, and the crystal returned is the one the numbers describe. Every file that dump_poscar writes follows this grammar, and each number is written with exactly the requested count of decimals, right-aligned in a field of decimals + 5 characters, and lies within half a unit of the last place.", "quantifier": "all texts that follow the grammar; all crystals that can be dumped", "why_tests_cant": "Infinitely many texts; tests contain a few files.", "anchors": ["src/wulfric/io/_vasp.py: load_poscar, dump_poscar"]}
{"id": "C58", "title": "Truncated POSCAR files", "statement": "If a file is cut at the end of a line before its last atom line, load_poscar raises an exception and never returns a crystal; lines after the last atom are ignored. Refuted for cuts inside a line: a file cut inside the last number is read as another crystal without an error.", "quantifier": "all files of the documented format and all cut points at line ends", "why_tests_cant": "All crash points of the writer, for every file.", "anchors": ["src/wulfric/io/_vasp.py: load_poscar, dump_poscar"]}
{"id": "C59", "title": "Symmetry data of a crystal", "statement": "get_spglib_data succeeds exactly when spglib is installed, the atoms are valid, every position is three numbers, the types can be determined and spglib answers both queries with a space group in 1..230; the object then holds the crystal it was given, the answers of spglib turned back by the transpose of the standard rotation, and the family and centring of the reported group. Each way to fail has one exception. Passing the object made with the default tolerances to any function that takes a crystal gives exactly what that function returns without it, and installed or missing spglib then makes no difference; an object made for another crystal is refused with ValueError by all of them, anything that is no such object with TypeError.", "quantifier": "all cells, atoms dictionaries, answers of spglib, tolerances, all functions that accept the data object", "why_tests_cant": "The iff ranges over every malformed dictionary and every answer of an external library; the reuse over every function and every crystal.", "anchors": ["src/wulfric/_spglib_interface.py: get_spglib_data, validate_spglib_data"]}
{"id": "C60", "title": "lepage names the Bravais lattice of the cell", "statement": "For every rotated or reflected copy of the documented primitive cells of the fourteen Bravais lattices (CUB, FCC, BCC, HEX, TET, BCT, RHL, ORC, ORCC, ORCF, ORCI, MCL, MCLC, TRI), with the parameters of no lattice of higher symmetry, lepage returns the name of that lattice, for every angle tolerance up to one degree, provided that the angle between each lattice direction and each lattice plane normal with small indices is either zero or not below the internal limit of 2 degrees. Rotating or reflecting a cell never changes the answer. Refuted: that scaling a cell does not change the answer (the test for monoclinic axes compares scalar products with an absolute tolerance); and that the proviso on small angles can be dropped (of two entries for one axis the less exact is kept, so a 1 x 1 x 15 tetragonal cell is called ORCC).", "quantifier": "all primitive cells of the documented shapes, all orientations, all tolerances, with or without the Niggli reduction", "why_tests_cant": "A continuum of cells and orientations; the answer comes from comparing up to 125 x 125 pairs of directions and planes.", "anchors": ["src/wulfric/_lepage.py: lepage, _check_cub, _check_hex, _check_tet, _check_rhl, _check_orc, _check_mcl"]}
{"id": "C61", "title": "HPKOT example crystals", "statement": "hpkot_get_example returns, for each of the 29 extended Bravais lattice symbols and for their first two letters, a crystal that every function accepts: a cell with non-zero volume, at least one atom, known species, relative coordinates in [0, 1), no two atoms at the same place. Its cell has the shape of the family of the symbol (hexagonal or rhombohedral for hR), the atoms are invariant under the translations of the centring letter, the inequality that distinguishes the variation holds (tI, oF, oC, oA, hR, mC), and the crystal has an inversion centre exactly when one was asked for. Two letters stand for variation 1 (aP for aP2). Every other string, and oF2, oI2, oA1, oA2 with inversion, raises ValueError. Refuted: that ValueError is the only exception (oA with inversion passes the check and raises FileNotFoundError).", "quantifier": "all strings, both values of with_inversion; the distance to symmetry is at most 1e-5 (asked for) or at least 1e-2 (not asked for) in relative coordinates", "why_tests_cant": "All strings; the absence of an inversion centre is a statement about a continuum of centres.", "anchors": ["src/wulfric/crystal/_hpkot_examples/__init__.py: hpkot_get_example"]}
{"id": "C62", "title": "The logo", "statement": "logo prints the art and below it a block with one line per information entry (at least seven lines when there is any), every line starts with the comment text, and all lines have the same width, max(width of the art, line_length), if no entry is longer than the art is wide minus 12. Up to eight entries appear in order on consecutive lines. Refuted: that entries of up to 50 characters keep the lines aligned (the flat art leaves 49), that more than eight entries appear in order (they are rotated), and that comment=False gives no comment (every line starts with the word False).", "quantifier": "all lists of entries without line breaks, all line lengths, both arts, every comment argument", "why_tests_cant": "Unbounded lists and texts; tests print a few.", "anchors": ["src/wulfric/_package_info.py: logo"]}
{"id": "C63", "title": "Comparisons in double precision", "statement": "On IEEE doubles (rounding to nearest even, overflow, infinities, nan) compare_with_tolerance keeps its laws: < and >=, > and <=, == and != are complementary for all arguments; with a tolerance that is not negative, and always with the default tolerances, exactly one of <, ==, > holds, also for infinities and nan; < is transitive and irreflexive, == reflexive and symmetric. < and > are never reported when they are false of the exact numbers, numbers that differ by at most the tolerance are always ==, and a difference is missed only if it exceeds the tolerance by less than half a unit in the last place. nan is == to everything, and with the default tolerances every number is == to an infinity given second. With the default rtol and atol the tolerance for a finite second number y is finite and equals 1e-8 + 1e-5 |y| up to a relative error of 2^-50. Any other condition raises ValueError.", "quantifier": "all doubles x, y, eps, rtol, atol, all six conditions", "why_tests_cant": "2^192 triples of doubles; the corner cases are rounding, overflow and nan.", "anchors": ["src/wulfric/_numerical.py: compare_with_tolerance"]}
{"id": "C64", "title": "Positions of a primitive cell in double precision", "statement": "The relative coordinates of get_primitive are rounded to eight decimals and reduced by two remainders modulo 1. In double precision two remainders give a number in [0, 1) for every double, one remainder alone does not (refuted with a witness), and for coordinates rounded to eight decimals one would be enough. The result differs from the given coordinate by an integer up to 0.5e-8 and (|x| + 1) 2^-51.", "quantifier": "all real coordinates whose products with 1e8 do not overflow", "why_tests_cant": "Every double; the exceptional inputs are negative numbers below 2^-54.", "anchors": ["src/wulfric/crystal/_primitive.py: get_primitive, _get_unique"]}
{"id": "C65", "title": "The table of high-symmetry points", "statement": "Kpoints.hs_table prints a header and one line per point in the order of hs_names: the name, blanks up to a common column two characters after the longest name, the three relative and the three absolute coordinates, each a decimal number that differs from the coordinate by at most half a unit of the last of the decimals asked for. If the coordinates have one digit before the point, all lines of points have the same width, and the header has it exactly when three or more decimals are printed and some name has four or more characters. A Kpoints object without points, and a negative number of decimals, raise ValueError.", "quantifier": "all Kpoints objects reachable through the constructor and any calls, all integers decimals", "why_tests_cant": "A continuum of coordinates, unbounded lists of names of every length.", "anchors": ["src/wulfric/_kpoints_class.py: Kpoints.hs_table"]}
{"id": "C66", "title": "Which exceptions are raised", "statement": "Reading any text with load_poscar gives a crystal or raises ValueError, IndexError or numpy's LinAlgError, nothing else. On a Kpoints object add_hs_point raises ValueError exactly for a name that exists and LinAlgError exactly for absolute coordinates with a singular cell, remove_hs_point never raises, the path setter raises ValueError (TypeError for something that is neither a string nor iterable), the n setter ValueError for anything but an integer. An unknown convention, and the spglib convention where a k-path is asked for, raise ConventionNotSupported; names of conventions are compared without regard to case. plot_atoms with atoms that have no colour raises KeyError (unknown species), TypeError (a list as species) or AttributeError (a name that is not a string) and adds nothing to the figure.", "quantifier": "all texts, all reachable Kpoints objects and calls, all strings as convention, all lists of species and names", "why_tests_cant": "Unbounded texts, histories and lists; which exception comes out depends on the first of many checks that fails.", "anchors": ["src/wulfric/io/_vasp.py: load_poscar", "src/wulfric/_kpoints_class.py: Kpoints", "src/wulfric/kpoints/_path_and_points.py: get_path_and_points", "src/wulfric/crystal/_primitive.py: get_primitive", "src/wulfric/_plotly_engine.py: PlotlyEngine.plot_atoms"]}
{"id": "C67", "title": "K-points along the path stay in the first Brillouin zone", "statement": "All the k-points that a Kpoints object made by from_crystal generates, at any density n >= 0, with the recommended path (with or without time reversal) or with any other path that the user sets through the recommended points, are in the closed first Brillouin zone of the primitive cell of the convention, whenever the points on the path are (C55). In particular this holds without further conditions for every cubic, tetragonal, hexagonal P and orthorhombic P, I, C, A crystal with a conventional cell of that shape, in both conventions.", "quantifier": "all crystals for which C55 holds, both conventions, all histories of setting path and n, all n", "why_tests_cant": "Infinitely many points on a segment, a continuum of cells, infinitely many reciprocal lattice vectors.", "anchors": ["src/wulfric/_kpoints_class.py: Kpoints.from_crystal, Kpoints.points, Kpoints.path, Kpoints.n", "src/wulfric/kpoints/_path_and_points.py: get_path_and_points"]}
{"id": "C68", "title": "Results do not depend on the orientation of the crystal", "statement": "Turn a crystal in space by any rotation (or reflection), keeping the relative positions of the atoms. If the symmetry library itself answers for the turned crystal with the same idealised crystal and a turned rotation matrix, then get_conventional and get_primitive return, in every convention, exactly the turned cells and the same atoms; sc_get_variation and hpkot_get_extended_bl_symbol return the same; get_path_and_points returns the same path, the same relative coordinates and turned absolute coordinates; Kpoints.from_crystal gives the same object but for the turned reciprocal cell; and each of them raises the same exception in the same cases. The same holds with precomputed data, with any tolerances.", "quantifier": "all cells, atoms, orthogonal matrices and conventions, all libraries that turn with the crystal", "why_tests_cant": "A continuum of cells times a continuum of rotations.", "anchors": ["src/wulfric/crystal/_conventional.py: get_conventional", "src/wulfric/crystal/_primitive.py: get_primitive", "src/wulfric/crystal/_sc_variation.py: sc_get_variation", "src/wulfric/crystal/_hpkot_extended_bl_symbol.py: hpkot_get_extended_bl_symbol", "src/wulfric/kpoints/_path_and_points.py: get_path_and_points", "src/wulfric/_kpoints_class.py: Kpoints.from_crystal"]}
{"id": "C69", "title": "Results in another unit of length", "statement": "Give the same crystal in another unit of length (all cells multiplied by s > 0, with any tolerance symprec in the new unit). Whenever the calls in both units return: get_conventional and get_primitive return, in every convention, the multiplied cells and the same atoms; hpkot_get_extended_bl_symbol returns the same; get_path_and_points in the HPKOT convention returns the same path, the same relative coordinates and the absolute coordinates divided by s, and Kpoints.from_crystal the same object but for the divided reciprocal cell. The same for sc_get_variation and the SC convention, except for face-centred orthorhombic crystals and, if symprec is changed together with the unit, base-centred monoclinic ones. Refuted for those: a face-centred orthorhombic crystal is ORCF2 in one unit and ORCF3 in the other, because an inverse square of a length is compared with symprec.", "quantifier": "all cells, atoms, conventions, scale factors and tolerances, with the data of the crystal in the two units", "why_tests_cant": "A continuum of cells times a continuum of units; absolute tolerances are hidden in several places.", "anchors": ["src/wulfric/crystal/_conventional.py: get_conventional", "src/wulfric/crystal/_primitive.py: get_primitive", "src/wulfric/crystal/_sc_variation.py: sc_get_variation", "src/wulfric/crystal/_hpkot_extended_bl_symbol.py: hpkot_get_extended_bl_symbol", "src/wulfric/kpoints/_path_and_points.py: get_path_and_points", "src/wulfric/_kpoints_class.py: Kpoints.from_crystal"]}
{"id": "C70", "title": "Names with the same letters denote equivalent points", "statement": "Among the points that get_path_and_points returns for a crystal, two points whose names differ only in their number or in the mark of inversion (X and X1, W and W2, B and B1, X1 and X1_P) are physically equivalent: some rotation, reflection or inversion that maps the reciprocal lattice of the returned primitive cell to itself moves one to the other, up to a reciprocal lattice vector. True for both conventions, every Bravais lattice and every variation, with and without time reversal, whenever the conventional cell has the shape of its crystal system.", "quantifier": "all crystals whose conventional cell has the shape of its family, both conventions, all pairs of returned points", "why_tests_cant": "A continuum of cells; equivalence means the existence of a symmetry of an infinite lattice, which no comparison of coordinates shows.", "anchors": ["src/wulfric/kpoints/_path_and_points.py: get_path_and_points", "src/wulfric/kpoints/_hpkot_points.py", "src/wulfric/kpoints/_sc_points.py", "src/wulfric/crystal/_primitive.py: get_primitive"]}
{"id": "C71", "title": "The path runs on the surface of the Brillouin zone unless it passes GAMMA", "statement": "On the path that get_path_and_points returns, two consecutive points neither of which is GAMMA lie on a common plane halfway between GAMMA and another reciprocal lattice point, and so does the whole straight step between them; every point of the step that is in the first Brillouin zone is therefore on its surface. When both ends are in the zone (C55) the whole step is on its surface; this needs no condition for cubic, tetragonal, primitive hexagonal and orthorhombic crystals other than face-centred. A step that starts at GAMMA is strictly inside of the zone up to its end.", "quantifier": "all crystals whose conventional cell has the shape of its family, both conventions, all steps of the path, all points of a step", "why_tests_cant": "A continuum of cells, infinitely many points on a step, infinitely many reciprocal lattice vectors.", "anchors": ["src/wulfric/kpoints/_path_and_points.py: get_path_and_points", "src/wulfric/constants/_sc_convention.py: SC_DEFAULT_K_PATHS", "src/wulfric/constants/_hpkot_convention.py: HPKOT_DEFAULT_K_PATHS"]}
{"id": "C72", "title": "The vectors of a Niggli cell are the shortest ones of the lattice", "statement": "If get_niggli returns a cell, for a lattice whose metric entries are multiples of a quantum larger than the tolerances (C12), its vectors are ordered by length and are shortest: no non-zero lattice vector is shorter than the first, of two lattice vectors that are not parallel at least one is at least as long as the second, and of three that do not lie in a plane at least one is at least as long as the third. The same for any cell that satisfies Niggli's conditions, however it was found.", "quantifier": "all cells, all lattice vectors, all runs that return", "why_tests_cant": "Infinitely many lattice vectors for each of a continuum of cells.", "anchors": ["src/wulfric/cell/_niggli.py: get_niggli"]}
{"id": "C73", "title": "The Niggli cell is unique and identifies the lattice", "statement": "Any two cells of one lattice that satisfy Niggli's conditions have the same lengths and angles. So get_niggli, called with any two cells of a lattice, in any orientation, gives cells with equal get_params; and conversely, if get_params of the two results are equal, the two cells that were given generate the same lattice up to a rotation or reflection. For lattices whose metric entries are multiples of a quantum larger than the tolerances (C12).", "quantifier": "all pairs of cells, all orientations, all runs that return", "why_tests_cant": "A lattice has infinitely many cells; uniqueness has to be shown for all changes of cell and all degenerate cases of Niggli's conditions.", "anchors": ["src/wulfric/cell/_niggli.py: get_niggli", "src/wulfric/cell/_basic_manipulation.py: get_params"]}
{"id": "C74", "title": "The answer of lepage depends on the lattice only", "statement": "lepage gives the same answer, and with give_all_results the same list of answers, or raises the same exception, for any two cells of one lattice in any orientations, if the Niggli reduction that it calls returns cells of the lattice that satisfy Niggli's conditions; likewise when the cells are first reduced with wulfric's own get_niggli (lattices as in C12) and no_niggli=True. With no_niggli=True and no reduction the answer does not depend on the orientation of the cell. In particular every cell, in every orientation, of a simple, face-centred or body-centred cubic lattice is called CUB, FCC or BCC for every angle tolerance up to one degree, and every cell of one of the other documented lattices is named as C60 says whenever the documented primitive cell satisfies Niggli's conditions.", "quantifier": "all pairs of cells of a lattice, all rotations and reflections, all tolerances and limits, all reductions that return reduced cells", "why_tests_cant": "Infinitely many cells for each of a continuum of lattices; ties between axes are resolved by order, which might depend on the cell.", "anchors": ["src/wulfric/_lepage.py: lepage", "src/wulfric/cell/_niggli.py: get_niggli"]}
{"id": "C75", "title": "lepage names every lattice after its symmetry", "statement": "Take any lattice and any cell of it. If lepage's Niggli reduction returns a Niggli cell of the lattice, and no pair of lattice vectors of that cell misses being a symmetry axis by less than the limit, lepage always answers. When at least two different rotations by 180 degrees leave the lattice as it is, the answer is a cubic, hexagonal, tetragonal, rhombohedral or orthorhombic name, and the answer is such a name if and only if the lattice is, up to a rotation or reflection, that of a documented primitive cell with exactly this name (so these names exclude each other); when there is at most one such rotation, the answer is MCL, MCLC or TRI. Refuted with no_niggli=True: two cells of the same body-centred orthorhombic lattice, one with its first vector reversed, get ORCI and ORCC.", "quantifier": "all lattices, all cells, all tolerances up to 1 degree and limits", "why_tests_cant": "A continuum of lattices, of infinitely many Niggli types of integer bases; the names have to agree with the symmetry of an infinite lattice.", "anchors": ["src/wulfric/_lepage.py: lepage"]}
{"id": "C76", "title": "Which lattices lepage calls MCL, MCLC and TRI", "statement": "Under the assumptions of C75, and if the angle tolerance is at most half of the square of the shortest lattice vector: the answer is MCL if and only if exactly one rotation by 180 degrees leaves the lattice as it is and the middle between any lattice point and its image under it is a lattice point. The answer is MCLC if and only if there is exactly one such rotation, some middle is not a lattice point, and two vectors perpendicular to the axis that are not parallel are sums of the Niggli vectors with coefficients -1, 0 and 1. The answer is TRI in the remaining cases: no such rotation, or one with no such pair of vectors. Refuted: that every base-centred monoclinic lattice is called MCLC; a lattice with Niggli vectors (2,0,0), (-1,3,0), (0,-1,4) is called TRI.", "quantifier": "all lattices, all cells, all tolerances and limits", "why_tests_cant": "A continuum of lattices, of infinitely many bases; the defect needs a special relation between the Niggli vectors.", "anchors": ["src/wulfric/_lepage.py: lepage", "src/wulfric/_lepage.py: _check_mcl", "src/wulfric/_lepage.py: _get_perpendicular_shortest"]}
{"id": "C77", "title": "Kpoints objects do not disturb each other", "statement": "A program that uses any number of Kpoints objects and lists of names: an object whose list of names is held by no other object, and is left alone by the caller, always is what the calls of its own methods make of it, whatever is done with the other objects in between. k.copy() gives an object equal to k with a list of its own; afterwards neither of the two sees what is done with the other. An object constructed without names, or with a list that was passed to no other object, is of this kind. Refuted for two objects constructed from the same list: add_hs_point on one leaves the other with a name that has no coordinates, and its remove_hs_point raises KeyError.", "quantifier": "all histories of constructor calls, copies, method calls and changes of lists, any number of objects", "why_tests_cant": "Unbounded interleavings of calls on an unbounded number of objects that may share lists.", "anchors": ["src/wulfric/_kpoints_class.py: Kpoints.__init__", "src/wulfric/_kpoints_class.py: Kpoints.copy", "src/wulfric/_kpoints_class.py: Kpoints.add_hs_point", "src/wulfric/_kpoints_class.py: Kpoints.remove_hs_point"]}
{"id": "C78", "title": "The Niggli reduction ends", "statement": "Every lattice has a cell that satisfies Niggli's conditions. With eps_relative=0, get_niggli(implementation='wulfric') returns a cell of the lattice for every cell of non-zero volume, if max_iterations is large enough. It is not so with the default eps_relative=1e-5: there is a cell of volume 100 for which NiggliReductionFailed is raised whatever max_iterations is, because the reduction goes round in circles; and for two hexagonal cells that are written with five decimals it returns cells with vectors of lengths 168 and 2507, though the vectors given are not longer than 5.", "quantifier": "all cells, all limits of iterations", "why_tests_cant": "Termination for a continuum of cells, and non-termination for every limit, cannot be observed.", "anchors": ["src/wulfric/cell/_niggli.py: get_niggli"]}
{"id": "C79", "title": "The order of the atoms does not matter", "statement": "If the answers of spglib do not depend on the order of the atoms (same lattices, same atoms in some order), then two dictionaries with the same atoms in different orders give the same crystal: get_spglib_data succeeds for both or for none, with the same group, cells and atoms; get_conventional returns the same cell and the same atoms in some order, with every attribute in which atoms of one type agree; get_primitive returns the same cell and the same atoms within symprec (exactly the same, in some order, with the spglib convention); sc_get_variation, hpkot_get_extended_bl_symbol, get_path_and_points and Kpoints.from_crystal return equal results, or raise for both. Refuted for attributes in which atoms of one type differ, such as the names Fe1 and Fe2: the names in the returned dictionary depend on the order.", "quantifier": "all crystals, all orders of their atoms, all conventions, all tolerances, all answers of a library that does not care for the order", "why_tests_cant": "n! orders of n atoms, for every n; all the functions follow different branches for different symmetries.", "anchors": ["src/wulfric/_spglib_interface.py: get_spglib_data", "src/wulfric/_spglib_interface.py: get_spglib_types", "src/wulfric/crystal/_conventional.py: get_conventional", "src/wulfric/crystal/_primitive.py: get_primitive", "src/wulfric/crystal/_primitive.py: _get_unique", "src/wulfric/kpoints/_path_and_points.py: get_path_and_points"]}
{"id": "C80", "title": "The choice of the cell does not matter for the k-path", "statement": "A crystal can be described by many cells (any basis of its lattice or of a superlattice, any origin). If spglib finds the same symmetry and the same standard lattices for two descriptions, then, whenever the calls return: get_conventional and get_primitive return the same cell; sc_get_variation and hpkot_get_extended_bl_symbol the same name; get_path_and_points the same path and, with relative=False, the same points; with relative=True each point has the coordinates of one and the same vector in the reciprocal basis of the cell passed, so that for cell vectors that are integer combinations of the others the coordinates change by that integer matrix; Kpoints.from_crystal gives the same names, path, labels and, in absolute units, the same ticks, points and flat_points.", "quantifier": "all pairs of descriptions for which spglib finds the same symmetry, all conventions, all numbers of points, with and without time reversal", "why_tests_cant": "A lattice has infinitely many bases; all the functions follow different branches for different symmetries.", "anchors": ["src/wulfric/crystal/_conventional.py: get_conventional", "src/wulfric/crystal/_primitive.py: get_primitive", "src/wulfric/crystal/_sc_variation.py: sc_get_variation", "src/wulfric/crystal/_hpkot_extended_bl_symbol.py: hpkot_get_extended_bl_symbol", "src/wulfric/kpoints/_path_and_points.py: get_path_and_points", "src/wulfric/_kpoints_class.py: Kpoints.from_crystal", "src/wulfric/_kpoints_class.py: Kpoints.points"]}
{"id": "C81", "title": "Positions in double precision", "statement": "For positions that are finite doubles: ensure_000 returns coordinates in [0,1], each the given one plus an integer up to one rounding, exactly (and below 1) if it was not negative; positions that differ by a lattice vector become equal; after two calls all are in [0,1) and nothing changes any more. Refuted for one call: an atom a little below 0 gets the coordinate 1, and a second call makes it 0. cure_negative returns non-negative coordinates, leaves non-negative axes alone, otherwise the smallest becomes exactly 0, all atoms are moved by the same vector up to one rounding, and a second call changes nothing. get_vector back and forth between atoms of one cell gives opposite vectors, between cells up to the rounding of the two sums. Refuted exactly: there are atoms with vector 0 one way and not 0 the other way.", "quantifier": "all finite doubles, any number of atoms, results that do not overflow", "why_tests_cant": "2^64 doubles per coordinate; the exceptions are within 2^-54 below zero, where tests do not look.", "anchors": ["src/wulfric/crystal/_basic_manipulation.py: ensure_000", "src/wulfric/crystal/_basic_manipulation.py: cure_negative", "src/wulfric/crystal/_basic_manipulation.py: get_vector"]}
{"id": "C82", "title": "The k-path in double precision", "statement": "For high-symmetry points with finite double coordinates and up to 2^50 points per segment: points() begins and ends every segment exactly at its two high-symmetry points, so that segments meet without a gap, and every other point is the exact one up to a few roundings; flat_points() starts at 0, never decreases, and each of its numbers is that of the start of the segment plus the distance of the point from that start up to a few roundings; ticks() starts at 0, never decreases, has one number more than there are segments, and neighbouring numbers are apart by the length of their segment up to a few roundings for every norm routine that is itself right up to a few roundings; if the two norm routines of numpy (one vector, rows of a matrix) agree on the segments, every tick is exactly, bit for bit, the flat coordinate of the end of one segment and the start of the next.", "quantifier": "all paths, all finite double coordinates, all numbers of points up to 2^50, results that do not overflow", "why_tests_cant": "2^64 doubles per coordinate; numpy.linspace uses two formulas and overwrites the last point, so rounding could make the last step negative.", "anchors": ["src/wulfric/_kpoints_class.py: Kpoints.points", "src/wulfric/_kpoints_class.py: Kpoints.flat_points", "src/wulfric/_kpoints_class.py: Kpoints.ticks"]}
