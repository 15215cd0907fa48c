{"id": "C01", "title": "Golden-ratio addition, subtraction and multiplication are exact", "statement": "A triple [a,b,c] with c != 0 denotes the real number (a+b*tau)/c, tau=(1+sqrt 5)/2. For any two such triples add, sub and mul return a triple denoting exactly the sum, difference and product, never raise, and the returned triple is in lowest terms (gcd of the three components is 1) with a positive denominator.", "quantifier": "all pairs of integer triples with non-zero denominators", "why_tests_cant": "The pairs form an infinite set; a test fixes a few and compares with floats, which cannot distinguish exact from nearly exact.", "anchors": ["src/pyqcstrc/ico2/math1.py::add", "src/pyqcstrc/ico2/math1.py::sub", "src/pyqcstrc/ico2/math1.py::mul"]}
{"id": "C02", "title": "Golden-ratio division is exact and rejects exactly the zero divisor", "statement": "For triples with non-zero denominators, div(a,b) returns None if and only if b denotes 0; otherwise it returns a lowest-terms triple with positive denominator denoting exactly a/b. In particular the internal norm b0^2+b0*b1-b1^2 never vanishes for a non-zero divisor, so the second error branch is never taken.", "quantifier": "all pairs of integer triples with non-zero denominators", "why_tests_cant": "Absence of a zero of the norm form over all integers is a number-theoretic fact (irrationality of sqrt 5); sampling cannot establish it.", "anchors": ["src/pyqcstrc/ico2/math1.py::div"]}
{"id": "C03", "title": "Results are canonical: equal arrays iff equal real values", "statement": "Two triples in lowest terms with positive denominator denote the same real number if and only if they are the same triple. Hence comparing arrays produced by the arithmetic component-wise (as np.unique and np.all do) decides equality of the real numbers they denote.", "quantifier": "all pairs of canonical triples", "why_tests_cant": "Needs irrationality of sqrt 5 for all integers; no finite test covers it.", "anchors": ["src/pyqcstrc/ico2/math1.py::add", "src/pyqcstrc/ico2/math1.py::mul", "src/pyqcstrc/ico2/math1.py::div", "src/pyqcstrc/ico2/utils.py::remove_doubling_in_perp_space"]}
{"id": "C04", "title": "Machine arithmetic agrees with exact arithmetic within a stated range, and silently fails outside it", "statement": "add, mul and div are computed with wrapping int64 products, an int64 gcd and a float64 division truncated by int(). Whenever every component of both operands is at most 2^25 (add, mul) in absolute value (and 2^16 for div) the result is the exact lowest-terms triple. There are int64 inputs outside the range for which a well-formed but wrong triple is returned without any error.", "quantifier": "all int64 operands within the bound; existence of a failing pair outside", "why_tests_cant": "The bound covers about 10^45 operand pairs; wrap-around and rounding errors are invisible to tests on small integers.", "anchors": ["src/pyqcstrc/ico2/math1.py::add", "src/pyqcstrc/ico2/math1.py::mul", "src/pyqcstrc/ico2/math1.py::div"]}
{"id": "C05", "title": "Behaviour on zero denominators is exactly characterised", "statement": "add raises if and only if the cross-multiplied numerators and the product of denominators are all zero; mul likewise. If only one denominator is zero the functions return a triple whose denominator is zero, i.e. an invalid value is propagated silently. sub(a,b) on a zero-denominator b behaves likewise.", "quantifier": "all integer triples, including zero denominators", "why_tests_cant": "An iff over all inputs including degenerate ones.", "anchors": ["src/pyqcstrc/ico2/math1.py::add", "src/pyqcstrc/ico2/math1.py::mul", "src/pyqcstrc/ico2/math1.py::sub"]}
{"id": "C06", "title": "Vector operations compute the exact vector operations", "statement": "add_vectors, sub_vectors, mul_vector, mul_vectors (3-d input), inner_product, outer_product, dot_product and dot_product_1 (matrix times vector) return exactly the component-wise sum, difference, scalar multiple, scalar product, cross product and matrix products of the vectors denoted; the cross product is orthogonal to both arguments and its squared length is |u|^2|v|^2-(u.v)^2; inner_product returns None exactly when the lengths differ; the ndim guards return None.", "quantifier": "all vectors of any length with well-formed components, all matrices of any matching shapes", "why_tests_cant": "All lengths and values; index slips (e.g. k,j versus k,i) show up only on asymmetric inputs.", "anchors": ["src/pyqcstrc/ico2/math1.py::add_vectors", "src/pyqcstrc/ico2/math1.py::sub_vectors", "src/pyqcstrc/ico2/math1.py::mul_vector", "src/pyqcstrc/ico2/math1.py::mul_vectors", "src/pyqcstrc/ico2/math1.py::inner_product", "src/pyqcstrc/ico2/math1.py::outer_product", "src/pyqcstrc/ico2/math1.py::dot_product", "src/pyqcstrc/ico2/math1.py::dot_product_1"]}
{"id": "C07", "title": "dot_product_1 on a list of column vectors and mul_vectors on 4-d objects do not do what they document", "statement": "The documented contract 'mat1*mat2' of dot_product_1 fails for 3-d second arguments (the code indexes the matrix by the output column instead of the summation index), and mul_vectors returns None for every 4-d object. The value actually returned is mat1[k][j]*sum_i mat2[i][j], and it raises IndexError as soon as there are more columns than the matrix has.", "quantifier": "all integer matrices and all arrays of matching shape; existence of a witness contradicting the contract", "why_tests_cant": "The exact condition under which the wrong index is harmless ranges over all shapes.", "anchors": ["src/pyqcstrc/ico2/math1.py::dot_product_1", "src/pyqcstrc/ico2/math1.py::mul_vectors"]}
{"id": "C08", "title": "Projection onto parallel and perpendicular space is exact, linear, orthogonal and norm-splitting", "statement": "projection(v) returns exactly the two 3-d vectors given by the documented 6x6 matrix; it is linear; projection3 equals the second half; the squared lengths satisfy |par|^2+|perp|^2 = (4+2 tau)|v|^2; the six rows are pairwise orthogonal and of equal length; projection(v)=0 iff v=0.", "quantifier": "all 6-d vectors with well-formed components, all scalars", "why_tests_cant": "Exact identities over an infinite field.", "anchors": ["src/pyqcstrc/ico2/math1.py::projection", "src/pyqcstrc/ico2/math1.py::projection3", "src/pyqcstrc/ico2/math1.py::mtrixcal"]}
{"id": "C09", "title": "The perpendicular projection separates lattice points", "statement": "Two 6-d vectors with rational coordinates have the same projection3 result if and only if they have the same coordinates as rational numbers; so de-duplication in perpendicular space never merges distinct lattice points. For general TAU-style vectors this is false: some different 6-d vectors share a perpendicular projection.", "quantifier": "all pairs of 6-d vectors with rational coordinates (second component 0); existence for the general case", "why_tests_cant": "Injectivity on an infinite set through an irrational projection.", "anchors": ["src/pyqcstrc/ico2/math1.py::projection3", "src/pyqcstrc/ico2/utils.py::remove_doubling_in_perp_space"]}
{"id": "C10", "title": "projection_perp is the orthogonal projector onto perpendicular space", "statement": "projection_perp(v) is a 6-d vector whose parallel projection is 0 and whose perpendicular projection equals that of v; it is idempotent, linear, self-adjoint, and returns v itself iff v has zero parallel part.", "quantifier": "all 6-d vectors with well-formed components", "why_tests_cant": "Operator identities over an infinite space.", "anchors": ["src/pyqcstrc/ico2/math1.py::projection_perp", "src/pyqcstrc/ico2/math1.py::projection"]}
{"id": "C11", "title": "The icosahedral operations form a group of order 120", "statement": "icosasymop() returns 120 pairwise different 6x6 matrices, the first is the identity, the set is closed under products and every element has its inverse (its transpose) in the list.", "quantifier": "all pairs of the 120 operations", "why_tests_cant": "Closure is a statement about all 14400 products against all 120 elements; finite and settled by exhaustive kernel computation, then used for all vectors.", "anchors": ["src/pyqcstrc/ico2/symmetry.py::icosasymop", "src/pyqcstrc/ico2/math1.py::matrixpow"]}
{"id": "C12", "title": "Every symmetry operation is an isometry of parallel and of perpendicular space", "statement": "For each operation R there are orthogonal 3x3 real matrices Mpar and Mperp such that the projections of R v are Mpar (par v) and Mperp (perp v) for every v; so lengths and angles in both spaces are preserved, and the operations never mix the two spaces.", "quantifier": "all 120 operations and all 6-d vectors", "why_tests_cant": "Infinite set of vectors.", "anchors": ["src/pyqcstrc/ico2/symmetry.py::icosasymop", "src/pyqcstrc/ico2/math1.py::projection", "src/pyqcstrc/ico2/symmetry.py::symop_vec"]}
{"id": "C13", "title": "Applying operations about a centre is a group action fixing the centre", "statement": "symop_vec(R,v,c) denotes R(v-c)+c exactly; it fixes c; applying R2 after R1 equals applying R2*R1, and applying R then its inverse gives back v, as identical arrays (canonical inputs); symop_obj maps this over 2-d, 3-d and 4-d arrays and returns None for other ndim.", "quantifier": "all operations, all vectors and centres, all object sizes", "why_tests_cant": "All inputs; equality of arrays, not of rounded floats.", "anchors": ["src/pyqcstrc/ico2/symmetry.py::symop_vec", "src/pyqcstrc/ico2/symmetry.py::symop_vecs", "src/pyqcstrc/ico2/symmetry.py::symop_obj"]}
{"id": "C14", "title": "symmetric() produces the full, closed orbit", "statement": "symmetric(obj,centre) returns 120*n tetrahedra; block i is operation i applied to obj about centre, block 0 is obj itself (canonical form); applying any operation about the same centre to the result permutes it: the set of tetrahedra is unchanged.", "quantifier": "all objects with any number of tetrahedra and all centres, all 120 operations", "why_tests_cant": "All object sizes and positions.", "anchors": ["src/pyqcstrc/ico2/occupation_domain.py::symmetric", "src/pyqcstrc/ico2/occupation_domain.py::symmetric_0", "src/pyqcstrc/ico2/symmetry.py::generator_obj_symmetric_obj"]}
{"id": "C15", "title": "Tetrahedron volume is exact, non-negative and geometric", "statement": "tetrahedron_volume_6d returns a canonical triple denoting exactly |det(p1-p0,p2-p0,p3-p0)|/6 of the perpendicular projections; it is >= 0, is 0 iff the four projections are coplanar, does not depend on the order of the vertices, and is unchanged by translations and by the symmetry operations.", "quantifier": "all quadruples of 6-d vectors, all 24 orders, all translations, all 120 operations", "why_tests_cant": "Exact identities on an infinite domain; sign decision in floating point is a branch.", "anchors": ["src/pyqcstrc/ico2/utils.py::tetrahedron_volume_6d", "src/pyqcstrc/ico2/utils.py::tetrahedron_volume", "src/pyqcstrc/ico2/utils.py::obj_volume_6d"]}
{"id": "C16", "title": "Object volume is additive and order independent", "statement": "volume(obj) is the exact sum of the volumes of its tetrahedra: volume(A ++ B) = volume(A)+volume(B), permuting tetrahedra or vertices inside them does not change the returned array, and volume(symmetric(obj)) = 120*volume(obj), volume(shift(obj,v)) = volume(obj).", "quantifier": "all objects of any size", "why_tests_cant": "Induction over the number of tetrahedra.", "anchors": ["src/pyqcstrc/ico2/occupation_domain.py::volume", "src/pyqcstrc/ico2/utils.py::obj_volume_6d"]}
{"id": "C17", "title": "Shifting is an exact invertible translation", "statement": "shift(obj,v) adds v exactly to every vertex, keeps the shape and order; shifting by v then by w equals shifting by v+w, shifting back by -v restores a canonical object bit for bit; non 4-d input returns None.", "quantifier": "all 4-d objects, all shift vectors", "why_tests_cant": "All inputs, exact array equality.", "anchors": ["src/pyqcstrc/ico2/occupation_domain.py::shift", "src/pyqcstrc/ico2/utils.py::shift_object"]}
{"id": "C18", "title": "Centroid is the exact mean", "statement": "centroid(points) returns exactly the arithmetic mean of the points for any positive number of points, independent of their order, commutes with translations and symmetry operations; for an empty array it raises. centroid_obj is the mean of the centroids of the parts.", "quantifier": "all non-empty lists of 6-d vectors; the empty list", "why_tests_cant": "All list lengths.", "anchors": ["src/pyqcstrc/ico2/math1.py::centroid", "src/pyqcstrc/ico2/math1.py::centroid_obj"]}
{"id": "C19", "title": "De-duplication keeps exactly one representative per point", "statement": "remove_doubling returns the lexicographically sorted list of the distinct input vectors; remove_doubling_in_perp_space returns, for vectors with well-formed components, a sub-list of the input in which every input vector has exactly one representative with the same perpendicular projection; both are idempotent and the set of perpendicular projections of the result does not depend on the order of the input.", "quantifier": "all lists of 6-d vectors, all permutations of them", "why_tests_cant": "All sizes, all orders, with duplicates anywhere.", "anchors": ["src/pyqcstrc/ico2/utils.py::remove_doubling", "src/pyqcstrc/ico2/utils.py::remove_doubling_in_perp_space"]}
{"id": "C20", "title": "remove_vector(s) removes exactly the given points, unless that would empty the set", "statement": "remove_vectors(vlst1,vlst2) / remove_vector(vts,v) return exactly the vectors of the first argument that are not (as integer arrays) among those of the second, in their order and with their multiplicity; if nothing would remain the original list is returned unchanged, contradicting the contract.", "quantifier": "all lists of 6-d vectors", "why_tests_cant": "Includes the all-removed corner case for any size.", "anchors": ["src/pyqcstrc/ico2/utils.py::remove_vectors", "src/pyqcstrc/ico2/utils.py::remove_vector"]}
{"id": "C21", "title": "Equivalence of tetrahedra, triangles and edges is equality of vertex sets", "statement": "equivalent_tetrahedra (triangles, edges) on two non-degenerate simplices returns True iff the sets of perpendicular projections of their vertices coincide; it is therefore reflexive, symmetric, transitive and independent of vertex order. With repeated vertices the test can fail even on identical arguments.", "quantifier": "all pairs of simplices", "why_tests_cant": "All vertex values and orders.", "anchors": ["src/pyqcstrc/ico2/utils.py::equivalent_tetrahedra", "src/pyqcstrc/ico2/utils.py::equivalent_triangles", "src/pyqcstrc/ico2/utils.py::equivalent_edges", "src/pyqcstrc/ico2/utils.py::equivalent_vertices"]}
{"id": "C22", "title": "The generic equivalence test ignores the size of its second argument", "statement": "equivalent(a,b) for vertex sets is intended to decide equality of vertex sets; there are arguments with different vertex sets (a triangle and one of its edges) for which it answers True.", "quantifier": "existence; plus an exact characterisation of when it answers True for all inputs", "why_tests_cant": "The characterisation ranges over all inputs; the wrong answers occur only for arguments of different sizes.", "anchors": ["src/pyqcstrc/ico2/utils.py::equivalent"]}
{"id": "C23", "title": "Faces and edges enumeration is complete", "statement": "get_tetrahedron_surface returns the four 3-element subsets and get_tetrahedron_edge / get_triangle_edge all 2-element subsets of the vertices, each exactly once; generator_all_edges concatenates them over the object: n tetrahedra give 6n edges, n triangles 3n edges.", "quantifier": "all tetrahedra/triangles, all objects of any size", "why_tests_cant": "All sizes; completeness of index lists.", "anchors": ["src/pyqcstrc/ico2/utils.py::get_tetrahedron_surface", "src/pyqcstrc/ico2/utils.py::get_tetrahedron_edge", "src/pyqcstrc/ico2/utils.py::get_triangle_edge", "src/pyqcstrc/ico2/utils.py::generator_all_edges"]}
{"id": "C24", "title": "Surface extraction returns exactly the faces that occur once", "statement": "generator_surface_1(obj) returns each face of the tetrahedra whose centroid is shared by no other face, exactly once, and no face whose centroid occurs twice or more; a single tetrahedron yields its four faces; in a face-to-face tetrahedralisation these are the boundary faces.", "quantifier": "all objects with any number of tetrahedra, in any order", "why_tests_cant": "Sort-and-compare-neighbours logic must be right for every multiplicity pattern and position (first, last, runs of three).", "anchors": ["src/pyqcstrc/ico2/utils.py::generator_surface_1"]}
{"id": "C25", "title": "Unique edges are selected by midpoint only", "statement": "generator_unique_edges returns one edge per distinct edge midpoint; two different edges that happen to cross at their midpoints are silently merged into one, so the result can miss an edge of the object.", "quantifier": "all lists of edges; existence of a losing input", "why_tests_cant": "Exact characterisation for all inputs.", "anchors": ["src/pyqcstrc/ico2/utils.py::generator_unique_edges"]}
{"id": "C26", "title": "Coplanarity check is correct for every random choice", "statement": "coplanar_check(points) with at most three points is True. With more points: if it answers True or False the answer is right (all points lie within the tolerance of one plane / some point does not), whatever triples the random generator picked, and on exactly coplanar points it never answers False; if every sampled triple is collinear it returns None, which callers treat as 'not coplanar' - a coplanar set can therefore be reported as not coplanar for some random choices.", "quantifier": "all point sets, all outcomes of the random sampling", "why_tests_cant": "Ranges over every random schedule.", "anchors": ["src/pyqcstrc/ico2/numericalc.py::coplanar_check_numeric", "src/pyqcstrc/ico2/numericalc.py::coplanar_check_numeric_tau", "src/pyqcstrc/ico2/math1.py::coplanar_check"]}
{"id": "C27", "title": "Grouping into coplanar sets is a partition", "statement": "get_sets_of_coplanar_triangles distributes the triangles into groups so that every triangle appears in exactly one group, no group is empty and all members of a group test coplanar with the first member of the group.", "quantifier": "all lists of triangles, any coplanarity predicate", "why_tests_cant": "All sizes and all patterns of coplanarity.", "anchors": ["src/pyqcstrc/ico2/utils.py::get_sets_of_coplanar_triangles"]}
{"id": "C28", "title": "Merging collinear border edges terminates and keeps end points", "statement": "surface_cleaner's merging loop terminates for every input (each merge reduces the number of segments by one), two_segment_into_one returns the long segment exactly when the two segments share an end point and are collinear with the shared point between, and every remaining end point is an end point of the input.", "quantifier": "all lists of segments, any merge predicate", "why_tests_cant": "Termination for all inputs.", "anchors": ["src/pyqcstrc/ico2/utils.py::surface_cleaner", "src/pyqcstrc/ico2/utils.py::two_segment_into_one"]}
{"id": "C29", "title": "Point-in-tetrahedron test accepts every point of the tetrahedron and only near points", "statement": "inside_outside_tetrahedron(point,tetrahedron) is True for every point of a non-degenerate closed tetrahedron (vertices, faces and interior) and False for every point whose barycentric excess exceeds the tolerance; it is always False for a degenerate tetrahedron; the answer does not depend on the order of the vertices.", "quantifier": "all points and all tetrahedra", "why_tests_cant": "All real points.", "anchors": ["src/pyqcstrc/ico2/numericalc.py::inside_outside_tetrahedron", "src/pyqcstrc/ico2/numericalc.py::tetrahedron_volume_numerical"]}
{"id": "C30", "title": "Point-in-object test answers the negation of its contract", "statement": "inside_outside_obj(point,obj) returns True exactly when no tetrahedron of the object contains the point, the opposite of its documentation; its TAU-style wrapper always raises.", "quantifier": "all points and all objects of any size", "why_tests_cant": "Exact iff over all objects.", "anchors": ["src/pyqcstrc/ico2/numericalc.py::inside_outside_obj", "src/pyqcstrc/ico2/numericalc.py::inside_outside_obj_tau"]}
{"id": "C31", "title": "Segment/triangle test never misses a proper crossing and reports only near crossings", "statement": "check_intersection_segment_surface_numerical returns True whenever the segment and the (closed) triangle meet in a point and the segment is not (numerically) parallel to the triangle plane; when it returns True the line meets the plane in a point which lies within the tolerance-enlarged segment and triangle.", "quantifier": "all segments and triangles", "why_tests_cant": "All real configurations.", "anchors": ["src/pyqcstrc/ico2/numericalc.py::check_intersection_segment_surface_numerical"]}
{"id": "C32", "title": "The exact intersection point lies on the segment's line and on the triangle's plane", "statement": "intersection_segment_surface(segment,triangle), when the perpendicular projections are not parallel, returns a 6-d vector A+t(B-A) whose perpendicular projection lies exactly in the plane of the projected triangle; the parameter t is the same as in the numerical test, so t in [0,1] gives a point of the segment.", "quantifier": "all segments and triangles in TAU-style", "why_tests_cant": "Exact algebraic identity over the field.", "anchors": ["src/pyqcstrc/ico2/intsct.py::intersection_segment_surface"]}
{"id": "C33", "title": "Classification of two tetrahedra", "statement": "check_intersection_two_tetrahedron_4 returns 1 only if all vertices of the first test inside the second, 2 only if all vertices of the second test inside the first (and not 1), 3 only if some edge/face pair tests intersecting, and 0 only if none of the 24+24 edge/face pairs does; two tetrahedra such that an edge of one properly crosses a face of the other are never classified 0.", "quantifier": "all pairs of tetrahedra, any results of the primitive tests", "why_tests_cant": "All pairs; completeness of the 48 combinations.", "anchors": ["src/pyqcstrc/ico2/intsct.py::check_intersection_two_tetrahedron_4"]}
{"id": "C34", "title": "The rough distance test never discards a pair that really meets", "statement": "rough_check_intersection_tetrahedron_obj returns True for every tetrahedron that shares a point in perpendicular space with an object enclosed by the ball of radius ball_radius_obj around its centroid.", "quantifier": "all tetrahedra and all objects", "why_tests_cant": "All real configurations; triangle inequality.", "anchors": ["src/pyqcstrc/ico2/intsct.py::rough_check_intersection_tetrahedron_obj", "src/pyqcstrc/ico2/intsct.py::ball_radius_obj", "src/pyqcstrc/ico2/intsct.py::ball_radius", "src/pyqcstrc/ico2/intsct.py::distance_in_perp_space"]}
{"id": "C35", "title": "Intersection of two tetrahedra returns only admissible results", "statement": "intersection_two_tetrahedron_4 returns None or a non-empty list of tetrahedra whose vertices all come from: vertices of one tetrahedron inside the other, or edge/face intersection points; None is returned whenever fewer than four distinct points are found or they test coplanar; exactly four points yield exactly one tetrahedron.", "quantifier": "all pairs of tetrahedra, any Delaunay/coplanarity oracle", "why_tests_cant": "All inputs and all oracle answers.", "anchors": ["src/pyqcstrc/ico2/intsct.py::intersection_two_tetrahedron_4", "src/pyqcstrc/ico2/utils.py::tetrahedralization_points"]}
{"id": "C36", "title": "Intersection of two objects collects pieces only from overlapping pairs", "statement": "intersection(obj1,obj2) returns None iff no pair of tetrahedra yields a piece; every tetrahedron of the result is a piece of the intersection of some pair (t1,t2), or t1 itself when t1 lies in a tetrahedron of obj2; with kind='simple' the volume of the result equals that of kind='standard'; non 4-d arguments return None.", "quantifier": "all pairs of objects of any size, any pairwise intersection oracle", "why_tests_cant": "All sizes and histories of flags.", "anchors": ["src/pyqcstrc/ico2/two_occupation_domains.py::intersection", "src/pyqcstrc/ico2/intsct.py::intersection_two_obj_1"]}
{"id": "C37", "title": "Zero-volume pieces never appear in a tetrahedralisation", "statement": "tetrahedralization_points returns None or a list of tetrahedra, each with vertices taken from the input points and each with non-zero exact volume; no tetrahedron proposed by the triangulation with non-zero volume is dropped.", "quantifier": "all point sets and all triangulations returned by the Delaunay oracle", "why_tests_cant": "All oracle answers.", "anchors": ["src/pyqcstrc/ico2/utils.py::tetrahedralization_points", "src/pyqcstrc/ico2/utils.py::decomposition"]}
{"id": "C38", "title": "XYZ files round-trip", "statement": "Reading with read_xyz a file produced by write_xyz for a non-empty set of tetrahedra returns exactly the array that was written, for all integer components; trailing volume lines do not disturb the reader.", "quantifier": "all non-empty objects, all integer components including negative and multi-digit, all numeric prefixes printed by the float formatter", "why_tests_cant": "Text encoding/decoding over all integers and all sizes.", "anchors": ["src/pyqcstrc/ico2/occupation_domain.py::write_xyz", "src/pyqcstrc/ico2/occupation_domain.py::read_xyz"]}
{"id": "C39", "title": "Per-tetrahedron volumes in the XYZ file are all those of the last tetrahedron", "statement": "The 'k-the tetrahedron, a b c' lines written by write_xyz should list the volume of tetrahedron k; they list the volume of the last tetrahedron for every k. The total volume line is correct.", "quantifier": "all objects; existence of a witness with two different volumes", "why_tests_cant": "Exact description for all objects.", "anchors": ["src/pyqcstrc/ico2/occupation_domain.py::write_xyz"]}
{"id": "C40", "title": "Return codes and reachability of the writers", "statement": "write(obj=None) returns 1 and writes nothing; any unknown format returns 0 without writing; write_xyz returns 0 only for a 4-d object with a known selection, and then wrote exactly one file; vertex lists of shape (n,6,3) are never written although write reports 0 for them, and selection 'vertex' raises on 4-d objects; in write_vesta every selection except 'simple' (which raises) gives the edge drawing, so a tetrahedron gets one bond instead of its six edges, the documented 'normal' output is never produced and 1 is never returned.", "quantifier": "all argument combinations", "why_tests_cant": "All strings and shapes.", "anchors": ["src/pyqcstrc/ico2/occupation_domain.py::write", "src/pyqcstrc/ico2/occupation_domain.py::write_xyz", "src/pyqcstrc/ico2/occupation_domain.py::write_vesta"]}
{"id": "C41", "title": "POD vertex index compaction is faithful", "statement": "For each row of vlist (a list of 1-based vertex numbers) and vertices given as a list, write_podatm writes each distinct referenced vertex once, and the compacted index list refers, entry by entry, to the same vertices as vlist; the number of tetrahedra written is the number of triples after the first entry. With the vertices given as a numpy array, as documented, the call always raises.", "quantifier": "all index lists", "why_tests_cant": "All lists with arbitrary repetitions.", "anchors": ["src/pyqcstrc/ico2/occupation_domain.py::write_podatm"]}
{"id": "C42", "title": "Finding the vertex common to all tetrahedra", "statement": "obj2podatm reports success exactly when some vertex of the first simplex occurs, in projection, in every simplex, and then uses the first such vertex. If vertices that coincide in projection are equal, the vertex list contains each other vertex once and the indices written spell out the simplices; otherwise the indices can be wrong. The number written after nth= is the number of vertices, not of simplices. An empty object raises.", "quantifier": "all objects of both packages", "why_tests_cant": "All sizes and vertex arrangements.", "anchors": ["src/pyqcstrc/ico2/occupation_domain.py::obj2podatm"]}
{"id": "C43", "title": "simplification accepts on a test that does not involve convexity", "statement": "simplification(obj) returns the convex hull when volume(obj)=volume(hull intersect obj). Since the object is contained in its hull this comparison holds for non-convex objects too, so the returned set can have a larger volume than obj.", "quantifier": "all objects, for any correct hull and intersection", "why_tests_cant": "Universal statement over oracles satisfying their specification.", "anchors": ["src/pyqcstrc/ico2/occupation_domain.py::simplification", "src/pyqcstrc/dode2/occupation_domain.py::simplification", "src/pyqcstrc/ico2/utils.py::generate_convex_hull"]}
{"id": "C44", "title": "Functions that can only fail", "statement": "det_matrix and middle_position (both packages), generator_equivalent_vectors (both), the two-segment intersection of ico2, site_symmetry of ico2, simple_hand_step1 on a non-empty object (both), and simple_hand_step2, generate_border_edges and inside_outside_obj_tau of dode2 raise for every input; the functions applying a selection of symmetry operations never return an object; merge_two_tetrahedra never returns a tetrahedron. For det_matrix and middle_position one undefined name is the only fault.", "quantifier": "all inputs", "why_tests_cant": "A test can show one failing input; here failure holds on all inputs, i.e. the functionality is absent.", "anchors": ["src/pyqcstrc/ico2/math1.py::det_matrix", "src/pyqcstrc/ico2/utils.py::middle_position", "src/pyqcstrc/ico2/utils.py::merge_two_tetrahedra", "src/pyqcstrc/ico2/symmetry.py::generator_obj_symmetric_tetrahedron_specific_symop", "src/pyqcstrc/ico2/symmetry.py::generator_equivalent_vectors", "src/pyqcstrc/ico2/intsct.py::intersection_two_segment", "src/pyqcstrc/ico2/occupation_domain.py::site_symmetry", "src/pyqcstrc/ico2/occupation_domain.py::simple_hand_step1", "src/pyqcstrc/dode2/occupation_domain.py::simple_hand_step2", "src/pyqcstrc/dode2/occupation_domain.py::generate_border_edges", "src/pyqcstrc/dode2/numericalc.py::inside_outside_obj_tau"]}
{"id": "C45", "title": "Dodecagonal arithmetic is exact", "statement": "In dode2 a triple [a,b,c] denotes (a+b*sqrt(3)/2)/c. add, sub, mul are exact and canonical for non-zero denominators; div returns None iff the divisor denotes 0 and otherwise the exact canonical quotient; the branch for 4*b0^2=3*b1^2 is unreachable for non-zero divisors.", "quantifier": "all pairs of integer triples with non-zero denominators", "why_tests_cant": "Infinite domain; irrationality of sqrt 3.", "anchors": ["src/pyqcstrc/dode2/math1.py::add", "src/pyqcstrc/dode2/math1.py::sub", "src/pyqcstrc/dode2/math1.py::mul", "src/pyqcstrc/dode2/math1.py::div"]}
{"id": "C46", "title": "Dodecagonal results are canonical", "statement": "Two canonical triples denote the same real number iff they are the same triple.", "quantifier": "all pairs of canonical triples", "why_tests_cant": "Irrationality of sqrt 3.", "anchors": ["src/pyqcstrc/dode2/math1.py::add", "src/pyqcstrc/dode2/math1.py::mul"]}
{"id": "C47", "title": "Dodecagonal projection is exact, linear and separates lattice points", "statement": "projection returns exactly the documented linear maps onto the parallel and perpendicular spaces; projection3 equals its second half; two rational vectors have the same perpendicular projection (including the extra coordinate) iff their first four and sixth coordinates agree; projection_perp returns None.", "quantifier": "all 6-d vectors", "why_tests_cant": "Infinite domain.", "anchors": ["src/pyqcstrc/dode2/math1.py::projection", "src/pyqcstrc/dode2/math1.py::projection3", "src/pyqcstrc/dode2/math1.py::projection_perp"]}
{"id": "C48", "title": "The dodecagonal operations form a group of order 24 acting by isometries", "statement": "dodesymop() returns 24 pairwise different matrices, identity first, closed under product and inverse, and each acts on the perpendicular plane by an orthogonal 2x2 matrix.", "quantifier": "all pairs of the 24 operations, all vectors", "why_tests_cant": "Closure and infinite set of vectors.", "anchors": ["src/pyqcstrc/dode2/symmetry.py::dodesymop"]}
{"id": "C49", "title": "Similarity transformations compose and act by a rotation times a unit", "statement": "similarity(m) is an integer matrix with similarity(m)*similarity(n)=similarity(m+n) for all integers m,n (so similarity(-m) undoes similarity(m)); on the plane of perpendicular space it acts as rotation by 75 degrees times sqrt(2-sqrt(3)), all to the power m, on that of parallel space as rotation by 15 degrees times sqrt(2+sqrt(3)), to the power m; areas in perpendicular space are multiplied by (2-sqrt(3))^m. It is not a pure scaling.", "quantifier": "all integers m, n", "why_tests_cant": "All exponents of both signs.", "anchors": ["src/pyqcstrc/dode2/symmetry.py::similarity", "src/pyqcstrc/dode2/symmetry.py::similarity_vec"]}
{"id": "C50", "title": "Triangle area is exact and geometric", "statement": "triangle_area_6d returns a canonical triple denoting exactly half the absolute cross product of the projected edges in the perpendicular plane; non-negative, zero iff collinear, invariant under vertex order, translation and the 24 operations; obj_area_6d is additive.", "quantifier": "all triples of 6-d vectors, all objects", "why_tests_cant": "Infinite domain.", "anchors": ["src/pyqcstrc/dode2/utils.py::triangle_area_6d", "src/pyqcstrc/dode2/utils.py::triangle_area", "src/pyqcstrc/dode2/utils.py::obj_area_6d"]}
{"id": "C51", "title": "Coset decomposition covers the group", "statement": "For every subgroup H of the 24 operations, the representatives returned by coset are such that the cosets g*H are pairwise disjoint and together are the whole group; the first is the identity and their number times |H| is 24. find_overlaps answers True iff two duplicate-free lists share an element; remove_overlaps returns the distinct elements in increasing order; site_symmetry_and_coset returns what the two functions return separately.", "quantifier": "all subgroups / all lists", "why_tests_cant": "All subgroups and lists.", "anchors": ["src/pyqcstrc/dode2/symmetry.py::coset", "src/pyqcstrc/dode2/symmetry.py::find_overlaps", "src/pyqcstrc/dode2/symmetry.py::remove_overlaps", "src/pyqcstrc/dode2/symmetry.py::site_symmetry_and_coset"]}
{"id": "C52", "title": "Site symmetry considers only translations by -1,0,1", "statement": "site_symmetry(site) returns exactly the operations that map the site to itself, within the code's tolerance 1e-6, up to a translation with components in {-1,0,1} (last component 0 in 5-d mode); it always contains the identity. For sites in the unit cell with coordinates of moderate denominator this is exactly the true site-symmetry group. It is not invariant under lattice translations of the site: a site with larger coordinates loses operations, the result then need not be a subgroup, and the coset representatives computed from it are wrong.", "quantifier": "all sites; existence of a losing site", "why_tests_cant": "Universal over sites, with a structural counterexample.", "anchors": ["src/pyqcstrc/dode2/symmetry.py::site_symmetry", "src/pyqcstrc/dode2/symmetry.py::translation"]}
{"id": "C53", "title": "Dodecagonal triangle connectivity is never detected", "statement": "check_connectivity_triangles compares the first triangle with itself, so it answers False for every pair, including triangles sharing an edge.", "quantifier": "all pairs of triangles", "why_tests_cant": "Universal statement: no input yields True.", "anchors": ["src/pyqcstrc/dode2/utils.py::check_connectivity_triangles"]}
{"id": "C54", "title": "Dodecagonal XYZ writer ignores its selection", "statement": "dode2 write_xyz ignores its selection: every selection gives the triangle form, whose header announces three vertices per item while every vertex is written. Sets of triangles are read back unchanged; files of edges make read_xyz fail; larger items come back truncated to three vertices per item. write returns 0 for None and 1 for an unknown format (the reverse of ico2).", "quantifier": "all objects and selection strings", "why_tests_cant": "All strings and object shapes.", "anchors": ["src/pyqcstrc/dode2/occupation_domain.py::write_xyz", "src/pyqcstrc/dode2/occupation_domain.py::write"]}
{"id": "C55", "title": "Tetrahedra sharing a face", "statement": "check_connectivity_tetrahedra(t1,t2) returns True iff the two vertex sets together have exactly five distinct perpendicular projections; for non-degenerate tetrahedra this is sharing exactly three vertices; get_common_triangle_in_two_tetrahedra then returns these three.", "quantifier": "all pairs of tetrahedra", "why_tests_cant": "All vertex arrangements.", "anchors": ["src/pyqcstrc/ico2/utils.py::check_connectivity_tetrahedra", "src/pyqcstrc/ico2/utils.py::get_common_triangle_in_two_tetrahedra"]}
{"id": "C56", "title": "Subtraction of objects is all-or-nothing", "statement": "subtraction_two_obj processes the tetrahedra of the first object one by one and returns None as soon as one piece is None; otherwise the result is the concatenation of the pieces.", "quantifier": "all objects, any per-tetrahedron subtraction", "why_tests_cant": "All sizes and all oracle answers.", "anchors": ["src/pyqcstrc/ico2/intsct.py::subtraction_two_obj", "src/pyqcstrc/ico2/two_occupation_domains.py::subtraction"]}
{"id": "C57", "title": "Border edges of coplanar triangles", "statement": "gen_border_edges_of_coplanar_triangles returns edges of the given triangles that belong to exactly one triangle (inner edges are dropped), and returns every such edge that no other edge crosses at its midpoint.", "quantifier": "all lists of non-degenerate triangles; soundness for any floating-point behaviour", "why_tests_cant": "All arrangements of triangles.", "anchors": ["src/pyqcstrc/ico2/utils.py::gen_border_edges_of_coplanar_triangles", "src/pyqcstrc/ico2/utils.py::generator_unique_edges"]}
{"id": "C58", "title": "Convex hull uses only input vertices", "statement": "Whatever generate_convex_hull returns, every vertex of the result is a vertex of the input object, every piece is a tetrahedron, and no piece has zero volume.", "quantifier": "all objects, any floating-point behaviour, any Delaunay triangulation, any random samples", "why_tests_cant": "The triangulation library and the random samples vary from run to run.", "anchors": ["src/pyqcstrc/ico2/utils.py::generate_convex_hull", "src/pyqcstrc/ico2/utils.py::surface_cleaner"]}
{"id": "C59", "title": "Dodecagonal vector operations are exact", "statement": "In the dodecagonal package add_vectors, sub_vectors, mul_vector, mul_vectors, inner_product, outer_product, dot_product and dot_product_1 return exactly the component-wise sum, difference, scalar multiple, scalar product, cross product and matrix products of the vectors denoted by (a+b*sqrt(3)/2)/c; the ndim guards return None.", "quantifier": "all vectors of any length with well-formed components, all matrices of matching shapes", "why_tests_cant": "All lengths and values; the two packages share text but not arithmetic.", "anchors": ["src/pyqcstrc/dode2/math1.py::add_vectors", "src/pyqcstrc/dode2/math1.py::sub_vectors", "src/pyqcstrc/dode2/math1.py::mul_vector", "src/pyqcstrc/dode2/math1.py::mul_vectors", "src/pyqcstrc/dode2/math1.py::inner_product", "src/pyqcstrc/dode2/math1.py::outer_product", "src/pyqcstrc/dode2/math1.py::dot_product", "src/pyqcstrc/dode2/math1.py::dot_product_1"]}
{"id": "C60", "title": "Dodecagonal operations about a centre form a group action", "statement": "symop_vec(R,v,c) denotes R(v-c)+c exactly, fixes c, composes as the operations do and is undone by the inverse operation, as identical arrays for canonical inputs; symop_obj maps this over 2-d, 3-d and 4-d arrays and returns None for other ndim.", "quantifier": "all 24 operations, all vectors and centres, all object sizes", "why_tests_cant": "All inputs; equality of arrays, not of rounded floats.", "anchors": ["src/pyqcstrc/dode2/symmetry.py::symop_vec", "src/pyqcstrc/dode2/symmetry.py::symop_vecs", "src/pyqcstrc/dode2/symmetry.py::symop_obj"]}
{"id": "C61", "title": "Dodecagonal symmetric() produces the full, closed orbit", "statement": "symmetric(obj,centre) returns 24*n triangles; block i is operation i applied to obj about centre, block 0 is obj itself (canonical form); applying any operation about the same centre permutes the result.", "quantifier": "all objects with any number of triangles, all centres, all 24 operations", "why_tests_cant": "All object sizes and positions.", "anchors": ["src/pyqcstrc/dode2/occupation_domain.py::symmetric", "src/pyqcstrc/dode2/occupation_domain.py::symmetric_0", "src/pyqcstrc/dode2/symmetry.py::generator_obj_symmetric_obj"]}
{"id": "C62", "title": "Dodecagonal shift is an exact invertible translation", "statement": "shift(obj,v) adds v exactly to every vertex, keeps shape and order; shifts compose, and shifting back by -v restores a canonical object bit for bit; non 4-d input returns None.", "quantifier": "all 4-d objects, all shift vectors", "why_tests_cant": "All inputs, exact array equality.", "anchors": ["src/pyqcstrc/dode2/occupation_domain.py::shift", "src/pyqcstrc/dode2/utils.py::shift_object"]}
{"id": "C63", "title": "Dodecagonal centroid is the exact mean", "statement": "centroid(points) returns exactly the arithmetic mean of the points, independent of their order, and commutes with translations and symmetry operations; for an empty array it raises. centroid_obj is the mean of the centroids of the parts.", "quantifier": "all non-empty lists of 6-d vectors; the empty list", "why_tests_cant": "All list lengths.", "anchors": ["src/pyqcstrc/dode2/math1.py::centroid", "src/pyqcstrc/dode2/math1.py::centroid_obj"]}
{"id": "C64", "title": "Dodecagonal de-duplication keeps exactly one representative per point", "statement": "In the dodecagonal package remove_doubling_in_perp_space returns, for vectors with well-formed components, a sub-list of the input in which every input vector has exactly one representative with the same perpendicular projection; the result depends only on the set of input vectors, both de-duplication functions are idempotent, treat a 4-d array as the list of all its vertices, and fail on other shapes.", "quantifier": "all lists of 6-d vectors, all permutations of them", "why_tests_cant": "All lists and all coincidences in projection.", "anchors": ["src/pyqcstrc/dode2/utils.py::remove_doubling_in_perp_space", "src/pyqcstrc/dode2/utils.py::remove_doubling"]}
{"id": "C65", "title": "Dodecagonal equivalence tests decide equality of projected vertex sets", "statement": "equivalent_triangles, equivalent_edges and equivalent_vertices decide, for non-degenerate arguments, whether the projected vertex sets are equal; degenerate arguments are not equivalent to themselves; the generic equivalent(a,b) decides inclusion of b in a, not equality.", "quantifier": "all pairs of triangles, edges, vertices, vertex sets", "why_tests_cant": "All pairs, including degenerate ones and all coincidences in projection.", "anchors": ["src/pyqcstrc/dode2/utils.py::equivalent_triangles", "src/pyqcstrc/dode2/utils.py::equivalent_edges", "src/pyqcstrc/dode2/utils.py::equivalent_vertices", "src/pyqcstrc/dode2/utils.py::equivalent"]}
{"id": "C66", "title": "Dodecagonal edge enumeration is complete", "statement": "get_triangle_edge lists each of the three vertex pairs of a triangle exactly once; generator_all_edges lists the edges of all triangles in order, and returns None for objects that are not made of triangles.", "quantifier": "all triangles and all objects with any number of triangles", "why_tests_cant": "All object sizes.", "anchors": ["src/pyqcstrc/dode2/utils.py::generator_all_edges", "src/pyqcstrc/dode2/utils.py::get_triangle_edge"]}
{"id": "C67", "title": "VESTA drawings of edges are faithful", "statement": "For every non-empty set of edges, write_vesta (any selection but 'simple' in ico2, 'egdes' in dode2) writes one atom for each distinct perpendicular-space point and, for each edge in order, one bond joining the atoms at its two ends together with its exact length; dode2's 'normal' writes one molecule per item holding the projections of its vertices; dode2 does not know 'edges', and 'simple' and 'podatm' raise.", "quantifier": "all non-empty objects whose items have at least two vertices, all selection strings", "why_tests_cant": "All object sizes and all coincidences of vertices in projection.", "anchors": ["src/pyqcstrc/ico2/occupation_domain.py::write_vesta", "src/pyqcstrc/dode2/occupation_domain.py::write_vesta"]}
{"id": "C68", "title": "Simplification by hand merges exactly the listed vertices", "statement": "simple_hand_step2(vertices, merge_list) of ico2 is the concatenation, in order, of the triangulations of the groups of vertices numbered (from 1) in merge_list. A flat group makes the call raise unless it is the only group, in which case the result is None; an empty merge_list raises; the number 0 is accepted and means the last vertex.", "quantifier": "all vertex lists and merge lists, for any triangulation", "why_tests_cant": "All numbers and lengths of groups.", "anchors": ["src/pyqcstrc/ico2/occupation_domain.py::simple_hand_step2"]}
{"id": "C69", "title": "intersection() returns the common part of space", "statement": "Take the objects as regions of perpendicular space (unions of closed tetrahedra) and the floating-point operations as exact. (1) Every point of the object returned by intersection() lies in a tetrahedron of each argument, up to 1e-6 in barycentric coordinates; exactly, if no vertex and no crossing point lies in that tolerance shell. (2) A point that lies in both arguments lies in the result, unless the only pair of tetrahedra around it has a common part thinner than 2e-4, provided that all tetrahedra have non-zero volume, no edge is nearly but not exactly parallel to a face, and the triangulation routine covers the hull of its points. With kind='simple', (1) fails if the second object covers a part of space twice.", "quantifier": "all pairs of objects made of tetrahedra, all samples drawn in the coplanarity check, all triangulation routines (covering ones for (2))", "why_tests_cant": "A statement about every point of space and every pair of objects.", "anchors": ["src/pyqcstrc/ico2/two_occupation_domains.py::intersection", "src/pyqcstrc/ico2/intsct.py::intersection_two_obj_1", "src/pyqcstrc/ico2/intsct.py::intersection_two_tetrahedron_4", "src/pyqcstrc/ico2/intsct.py::check_intersection_two_tetrahedron_4", "src/pyqcstrc/ico2/intsct.py::intersection_segment_surface"]}
{"id": "C70", "title": "Dodecagonal point-in-triangle test", "statement": "For a point and a triangle in one plane of perpendicular space the test answers True, with exact floating-point operations, exactly when the triangle has non-zero area and the absolute values of the three barycentric coordinates sum to less than 1+1e-6. So every point of the closed triangle passes, nothing passes with a barycentric coordinate below -5e-7, and nothing is ever inside a degenerate triangle. The test never raises.", "quantifier": "all points and triangles of one plane", "why_tests_cant": "A statement about every point and triangle; the size of the tolerance cannot be sampled.", "anchors": ["src/pyqcstrc/dode2/numericalc.py::inside_outside_triangle_tau", "src/pyqcstrc/dode2/numericalc.py::inside_outside_triangle"]}
{"id": "C71", "title": "Dodecagonal segment crossing points", "statement": "Two segments of one plane are reported to meet exactly when the area they span has a square of at least 1e-6 and the closed segments share a point. The crossing point returned is that point, in exact coordinates, lies on both segments, is unique, and its 6-d lift lies on the line through the end points of the first segment. Parallel or nearly parallel segments give no point. Outside one plane the test compares the nearest points of the two lines (square distance below 1e-6); if parallel segments were reported to meet, the construction would raise TypeError.", "quantifier": "all pairs of segments", "why_tests_cant": "Ranges over all segment pairs, including the touching and nearly parallel ones.", "anchors": ["src/pyqcstrc/dode2/numericalc.py::check_intersection_two_segment_numerical_6d_tau", "src/pyqcstrc/dode2/intsct.py::intersection_two_segment"]}
{"id": "C72", "title": "Classification of pairs of dodecagonal triangles", "statement": "The class of a pair of triangles is 1 exactly when all vertices of the first are inside the second, 2 exactly when not 1 and all vertices of the second are inside the first, 3 exactly when neither and some edges meet, and 0 otherwise; the classification never raises. The preliminary distance test never discards a triangle which shares a point with the other object, because the radius used is the largest distance of a vertex from the centre.", "quantifier": "all pairs of triangles; all objects", "why_tests_cant": "A missed overlap would be a silent hole in the result for particular inputs.", "anchors": ["src/pyqcstrc/dode2/intsct.py::check_intersection_two_triangles", "src/pyqcstrc/dode2/intsct.py::rough_check_intersection_triangle_obj", "src/pyqcstrc/dode2/intsct.py::ball_radius_obj"]}
{"id": "C73", "title": "Intersection of two dodecagonal triangles", "statement": "Whatever the floating-point behaviour, every vertex of the triangles returned for a pair is a vertex of one triangle inside the other or a crossing point of their edges; the triangulation is given exactly the distinct such points; three points are returned as one triangle; and with more than three only triangles of non-zero area are kept, and all of those. If no edges of the triangles meet, it raises UnboundLocalError, which never happens on pairs of class 3.", "quantifier": "all pairs of triangles, any floating-point behaviour, any triangulation routine", "why_tests_cant": "Holds for all inputs and for every behaviour of the float arithmetic and of Qhull.", "anchors": ["src/pyqcstrc/dode2/intsct.py::intersection_two_triangles", "src/pyqcstrc/dode2/utils.py::triangulation_points"]}
{"id": "C75", "title": "Dodecagonal subtraction and intersection_convex cannot succeed", "statement": "subtraction() of two objects always raises NameError, and so does intersection_convex() of two non-empty objects: both call functions that are not defined. Arguments that are not 4-dimensional give None.", "quantifier": "all arguments", "why_tests_cant": "That no input makes the function succeed is a statement about all inputs.", "anchors": ["src/pyqcstrc/dode2/two_occupation_domains.py::subtraction", "src/pyqcstrc/dode2/two_occupation_domains.py::intersection_convex", "src/pyqcstrc/dode2/intsct.py::subtraction_two_obj", "src/pyqcstrc/dode2/intsct.py::intersection_two_obj_convex"]}
{"id": "C74", "title": "Dodecagonal intersection is the common part of the plane", "statement": "intersection() of two objects made of triangles of one plane, computed with exact floating-point operations: (soundness) every point of the result lies within a relative distance 5e-7 (barycentric) of a triangle of each object; (completeness) every point common to both objects lies in the result, unless the two triangles it lies in only share a piece of a line, provided no two edges are almost but not exactly parallel, the triangles have non-zero area and the triangulation covers the hull of points that are not on one line; and it never raises if the triangulation names existing points. select='simple' gives an object of the same total area, but not the same point set: the area comparison can be fooled by overlapping triangles. Triangles with collinear vertices can appear in the result, because vertices within the tolerance are taken up.", "quantifier": "all pairs of objects in one plane, any triangulation routine", "why_tests_cant": "Equality of two regions of the plane for all objects; only sampled points and areas can be tested.", "anchors": ["src/pyqcstrc/dode2/two_occupation_domains.py::intersection", "src/pyqcstrc/dode2/intsct.py::intersection_two_obj_1", "src/pyqcstrc/dode2/intsct.py::intersection_two_triangles"]}
{"id": "C76", "title": "Point-on-triangle test accepts exactly the points whose three sub-triangles do not exceed the area by 1e-6", "statement": "on_out_surface(point, triangle), computed with exact floating-point operations, is True iff the areas of the three triangles spanned by the point and two corners add up to less than the area of the triangle plus 1e-6. Hence every point of the closed triangle passes; in the plane of the triangle a point passes iff its barycentric excess times the area is below 1e-6; a point at distance d from the plane passes only if (d*perimeter/2)^2 < 2e-6*area + 1e-12. The tolerance is an area: small triangles accept points far outside, and ordinary ones accept points 5e-4 off their plane. It never raises on well-formed vectors.", "quantifier": "all points and triangles of 6-d vectors in either package", "why_tests_cant": "The acceptance region is a continuum around every possible triangle.", "anchors": ["src/pyqcstrc/ico2/numericalc.py::on_out_surface", "src/pyqcstrc/dode2/numericalc.py::on_out_surface"]}
{"id": "C77", "title": "Point-on-segment test", "statement": "point_on_segment(point, segment), computed with exact floating-point operations: every point of a closed segment of positive length passes; on the line through the end points exactly the points of the segment pass, plus points just before the first end point (distance times length below 5e-7); whatever passes is within sqrt(2e-6) of the segment and no farther from the first end point than the second one is; a segment of length zero contains no point, not even its own end. The tolerance is not 1e-6 in distance.", "quantifier": "all points and segments in either package", "why_tests_cant": "The acceptance region is a continuum around every possible segment.", "anchors": ["src/pyqcstrc/ico2/numericalc.py::point_on_segment", "src/pyqcstrc/dode2/numericalc.py::point_on_segment"]}
{"id": "C78", "title": "Numerical projections, areas and volumes agree with the exact ones", "statement": "projection_numerical returns the numbers denoted by projection; obj_volume_6d_numerical and tetrahedron_volume_6d_numerical the number denoted by obj_volume_6d and tetrahedron_volume_6d; for triangles with constant sixth coordinate the dodecagonal obj_volume_6d_numerical the number denoted by obj_area_6d (with exact floating-point operations). For an inclined triangle the numerical function measures the triangle itself and the exact one its projection. triangle_area and obj_volume_numerical return the Euclidean area and volume of the points.", "quantifier": "all well-formed vectors and objects", "why_tests_cant": "Agreement of two implementations on every object.", "anchors": ["src/pyqcstrc/ico2/numericalc.py::projection_numerical", "src/pyqcstrc/ico2/numericalc.py::obj_volume_6d_numerical", "src/pyqcstrc/ico2/numericalc.py::tetrahedron_volume_6d_numerical", "src/pyqcstrc/ico2/numericalc.py::obj_volume_numerical", "src/pyqcstrc/ico2/numericalc.py::triangle_area", "src/pyqcstrc/dode2/numericalc.py::projection_numerical", "src/pyqcstrc/dode2/numericalc.py::obj_volume_6d_numerical", "src/pyqcstrc/dode2/numericalc.py::triangle_volume_6d_numerical", "src/pyqcstrc/dode2/numericalc.py::triangle_area"]}
{"id": "C79", "title": "symmetric_0 selects one block of symmetric", "statement": "symmetric_0(obj, centre, i) returns block i of symmetric(obj, centre), for i = 0..119 (icosahedral) or 0..23 (dodecagonal); negative indices down to -120 (-24) count from the end, any other index raises IndexError; arrays that are neither 3-d nor 4-d give None. generator_symmetric_vec_0 likewise gives the i-th image of a vector.", "quantifier": "all objects, centres and integer indices", "why_tests_cant": "All objects and all integers as index.", "anchors": ["src/pyqcstrc/ico2/occupation_domain.py::symmetric_0", "src/pyqcstrc/ico2/symmetry.py::generator_obj_symmetric_tetrahedron_0", "src/pyqcstrc/dode2/occupation_domain.py::symmetric_0", "src/pyqcstrc/dode2/symmetry.py::generator_obj_symmetric_triangle_0", "src/pyqcstrc/dode2/symmetry.py::generator_symmetric_vec_0"]}
{"id": "C80", "title": "Unique triangles of an object", "statement": "generator_unique_triangles of an object with two or more tetrahedra, computed with exact floating-point operations, returns for every centre of a face exactly one face with that centre, the first one in the list. If faces with equal centres have equal corners, every face is represented by exactly one triangle. Otherwise a face is lost. One tetrahedron gives its four faces. In binary64 a common face can be returned twice.", "quantifier": "all objects made of tetrahedra", "why_tests_cant": "All objects, with any number of coinciding faces.", "anchors": ["src/pyqcstrc/ico2/utils.py::generator_unique_triangles"]}
{"id": "C81", "title": "Segment-segment and object inclusion tests that cannot run", "statement": "check_intersection_two_segment_numerical raises IndexError for every pair of segments given by two points each (the third row of the second segment is read). The dodecagonal inside_outside_obj raises NameError for every object with a triangle and calls every point inside the empty object; inside_outside_obj_tau always raises.", "quantifier": "all arguments", "why_tests_cant": "Failure for every argument; a test shows it for one.", "anchors": ["src/pyqcstrc/ico2/numericalc.py::check_intersection_two_segment_numerical", "src/pyqcstrc/dode2/numericalc.py::inside_outside_obj", "src/pyqcstrc/dode2/numericalc.py::inside_outside_obj_tau"]}
{"id": "C82", "title": "outline() of a dodecagonal object is the boundary of the occupied region", "statement": "outline(obj), computed with exact floating-point operations, of an object whose triangles lie in one plane of perpendicular space, have non-zero area and meet edge to edge: if all pairs of triangles pass the coplanarity test, the union of the returned segments is exactly the topological boundary of the region occupied by the object (outer border and the borders of holes). The ends of the segments are different vertices of the object and no two returned segments continue one another in a straight line. If the random samples of the coplanarity test pick collinear vertices, interior edges are returned as part of the outline.", "quantifier": "all edge-to-edge objects in one plane, with any number of triangles, holes and components, and all outcomes of the random samples", "why_tests_cant": "The boundary of every possible union of triangles, as a set of points.", "anchors": ["src/pyqcstrc/dode2/occupation_domain.py::outline", "src/pyqcstrc/dode2/utils.py::surface_cleaner", "src/pyqcstrc/dode2/utils.py::get_sets_of_coplanar_triangles", "src/pyqcstrc/dode2/utils.py::two_segment_into_one"]}
{"id": "C83", "title": "Coplanarity test of two triangles of one plane depends on random samples", "statement": "coplanar_check_two_triangles of dode2 for two triangles of one plane, computed with exact floating-point operations, is True iff they have at most three different vertices or one of the random triples of vertices spans an area of at least 5e-7. So two triangles of one plane can be declared not coplanar, and the answer can differ between two calls.", "quantifier": "all pairs of triangles of one plane and all outcomes of the random samples", "why_tests_cant": "The failing outcome is random and rare.", "anchors": ["src/pyqcstrc/dode2/utils.py::coplanar_check_two_triangles", "src/pyqcstrc/dode2/numericalc.py::coplanar_check_numeric_tau"]}
{"id": "C84", "title": "Unique edges and border edges of dodecagonal triangles", "statement": "generator_unique_edges of dode2, computed with exact floating-point operations, returns one edge for every midpoint, the first in the list; two edges crossing at their midpoints are taken for one and one is lost. gen_border_edges_of_coplanar_triangles returns only edges that belong to exactly one triangle, in any arithmetic; for edge-to-edge objects it returns all of them.", "quantifier": "all lists of segments or triangles", "why_tests_cant": "All objects, with any number of common edges.", "anchors": ["src/pyqcstrc/dode2/utils.py::generator_unique_edges", "src/pyqcstrc/dode2/utils.py::gen_border_edges_of_coplanar_triangles"]}
{"id": "C85", "title": "generate_border_edges() of dode2 cannot run", "statement": "generate_border_edges(obj) of dode2 raises AttributeError for every object: it calls utils.generator_surface_1, which dode2 does not have.", "quantifier": "all objects", "why_tests_cant": "Failure for every argument; a test shows it for one.", "anchors": ["src/pyqcstrc/dode2/occupation_domain.py::generate_border_edges"]}
{"id": "C86", "title": "Convex hull of a dodecagonal object", "statement": "generate_convex_hull of dode2: all vertices of the result are vertices of the object and no triangle of the result is flat, in any arithmetic and for any triangulation. With exact floating-point operations, for an edge-to-edge object in one plane whose triangles pass the coplanarity test, and a triangulation that covers the convex hull of its points, the result occupies exactly the convex hull of the vertices of the object.", "quantifier": "all objects, triangulations and outcomes of the random samples", "why_tests_cant": "Equality of two sets of points for every object.", "anchors": ["src/pyqcstrc/dode2/utils.py::generate_convex_hull", "src/pyqcstrc/dode2/utils.py::surface_cleaner", "src/pyqcstrc/dode2/utils.py::triangulation_points"]}
{"id": "C87", "title": "asymmetric() returns the part of the object in a corner, cut off at five times the vectors", "statement": "asymmetric(obj, position, vecs), computed with exact floating-point operations: every point of the result lies in the object and has the form position + x*v1 + y*v2 + z*v3 with x, y, z >= 0 and x+y+z <= 5, up to 1e-6 in barycentric coordinates; every point of the object of that form lies in the result, under the conditions of C69. Points of the object in the corner with x+y+z > 5 are silently cut off. vecs that are not three 6-d vectors raise ValueError.", "quantifier": "all objects, positions and vectors, all triangulations that cover the hull of their points", "why_tests_cant": "Equality of two sets of points for every object and corner.", "anchors": ["src/pyqcstrc/ico2/occupation_domain.py::asymmetric", "src/pyqcstrc/ico2/intsct.py::intersection_two_obj_1", "src/pyqcstrc/ico2/math1.py::mul_vectors"]}
{"id": "C88", "title": "Coordinates in written files are the nearest six-decimal numbers", "statement": "A coordinate (a+b*w)/c written by write_xyz or write_vesta ('%8.6f') is text of the form blanks, optional minus, digits, point, six digits; the number it denotes is the multiple of 1e-6 nearest to the computed double (the even one of two), and differs from the exact coordinate by at most 5e-7 + 2^-51 (|a|+2|b|)/|c|, for coefficients up to 2^53.", "quantifier": "all finite doubles; all coordinates with coefficients up to 2^53", "why_tests_cant": "2^64 doubles, and rounding errors for all coefficients.", "anchors": ["src/pyqcstrc/ico2/occupation_domain.py::write_xyz", "src/pyqcstrc/dode2/occupation_domain.py::write_xyz", "src/pyqcstrc/ico2/numericalc.py::numeric_value"]}
{"id": "C89", "title": "Accuracy of the conversion to floating point", "statement": "numeric_value([a,b,c]) in IEEE binary64 is finite and differs from (a+b*w)/c by at most 2^-51 (|a|+2|b|)/|c|, for |a|, |b|, |c| <= 2^53 and c != 0 (w = TAU in ico2, sqrt(3)/2 in dode2). There is no bound on the relative error: a number different from zero is computed as 0.0.", "quantifier": "all coefficients up to 2^53", "why_tests_cant": "2^160 arguments.", "anchors": ["src/pyqcstrc/ico2/numericalc.py::numeric_value", "src/pyqcstrc/dode2/numericalc.py::numeric_value"]}
{"id": "C90", "title": "The surface of a face-to-face object is the boundary of the occupied region", "statement": "generator_surface_1(obj), computed with exact floating-point operations, for an object whose tetrahedra have non-zero volume and meet face to face, and whose different face centres are told apart by np.allclose: the union of the returned triangles is exactly the topological boundary of the region occupied by the object, and every triangle is a face of a tetrahedron of the object. In binary64 a triangle inside the object can be returned.", "quantifier": "all face-to-face objects", "why_tests_cant": "Equality of two infinite sets of points for every object; a test compares triangle counts.", "anchors": ["src/pyqcstrc/ico2/utils.py::generator_surface_1", "src/pyqcstrc/ico2/occupation_domain.py::write_xyz", "src/pyqcstrc/ico2/occupation_domain.py::generate_border_edges"]}
{"id": "C91", "title": "Intersection of convex objects is their common part, or it raises", "statement": "intersection_convex(obj1, obj2), computed with exact floating-point operations, for two convex face-to-face objects for which no tolerance matters: if obj1 lies in obj2 it is returned unchanged; otherwise if obj2 lies in obj1 it is returned unchanged; if they are disjoint the result is empty; if each has a corner in the other, the points handed to the triangulation span exactly the common part, so that a returned object occupies exactly the common part whenever the triangulation covers the hull of its points. If they overlap but one of them has no corner in the other, the function raises UnboundLocalError.", "quantifier": "all pairs of convex face-to-face objects and all triangulations", "why_tests_cant": "Equality of infinite sets of points for every pair of convex solids; a test tries a few pairs and one triangulation.", "anchors": ["src/pyqcstrc/ico2/two_occupation_domains.py::intersection_convex", "src/pyqcstrc/ico2/intsct.py::intersection_two_obj_convex"]}
{"id": "C92", "title": "What subtraction of objects returns, and when it cannot", "statement": "subtraction(obj1, obj2) only returns an object when every tetrahedron of obj1 has exactly one vertex outside obj2; each returned tetrahedron joins that vertex to a surface triangle of the common part all of whose vertices lie on the surface of obj2, and the returned volume for a tetrahedron never exceeds its volume less that of the common part (equality is only guaranteed when all such triangles are used). With two vertices outside it raises; with none outside it returns nothing; when obj1 and obj2 are disjoint it raises AttributeError although the difference is obj1 (and the intersection is correctly empty). The result can be a proper part of the difference.", "quantifier": "all objects made of tetrahedra, all triangulations, random samples and sorting orders", "why_tests_cant": "The outcome depends on the relative position of arbitrary objects and on the order in which combinations of tetrahedra are tried; a test sees a few positions.", "anchors": ["src/pyqcstrc/ico2/two_occupation_domains.py::subtraction", "src/pyqcstrc/ico2/intsct.py::subtraction_two_obj", "src/pyqcstrc/ico2/intsct.py::tetrahedron_not_obj_1", "src/pyqcstrc/ico2/intsct.py::tetrahedron_not_obj_2"]}
{"id": "C93", "title": "Rounding does not change the inside test near the origin", "statement": "In IEEE double precision the perpendicular coordinates computed from exact numbers of size A (up to 1e6) are finite and off by at most 10 A/2^51 each; for coordinates of size A in a figure of extent D, with a tetrahedron that is not too flat (volume at least (A+D)D^2/500000), the inside test accepts every point of the closed tetrahedron and rejects every point having a barycentric coordinate of at most -1e-6. Without the bound on A this fails: a tetrahedron of ordinary size moved by 1e11 lattice steps loses the midpoint of one of its own edges.", "quantifier": "all 6D points and tetrahedra with the stated sizes", "why_tests_cant": "Rounding errors depend on every bit of the coordinates; a test cannot bound them over all points, in particular those on faces, edges and corners where the exact answer is decided by equality.", "anchors": ["src/pyqcstrc/ico2/numericalc.py::inside_outside_tetrahedron_tau", "src/pyqcstrc/ico2/numericalc.py::projection_numerical", "src/pyqcstrc/ico2/numericalc.py::get_internal_component_numerical"]}
{"id": "C94", "title": "Rounding does not change the segment-triangle test", "statement": "In IEEE double precision, for coordinates of size A in a figure of extent D: a segment exactly parallel to a triangle is never reported to meet it; a segment that has a point in common with the triangle and is not nearly parallel to it is always reported; and if a segment that is exactly parallel or inclined enough is reported, then there is a point within 2e-6 (in barycentric coordinates) of the segment and of the triangle.", "quantifier": "all segments and triangles of 6D points with the stated sizes", "why_tests_cant": "The test divides by a computed determinant; whether its sign and its zero are right must hold for all roundings.", "anchors": ["src/pyqcstrc/ico2/numericalc.py::check_intersection_segment_surface_numerical_6d_tau", "src/pyqcstrc/ico2/numericalc.py::check_intersection_segment_surface_numerical"]}
{"id": "C95", "title": "The intersection computed in double precision is sound and complete", "statement": "In IEEE double precision, for tetrahedra with coordinates of moderate size that are not too flat and whose edges and faces are exactly parallel or inclined enough: tetrahedra with a common point are never classified as disjoint, and every point of intersection(obj1, obj2) lies within 2e-6 (barycentric) of a tetrahedron of obj1 and of one of obj2, hence exactly in both objects when no vertex or crossing point lies within 2e-6 outside. Conversely, if the call returns and the triangulation of the points found covers their hull, each point common to a tetrahedron of obj1 and one of obj2 is in the result, or the whole common part of the two lies within 1.3e-4 + (A+D) D^2 / 2e6 of one plane, where A and D bound the size of the points found; the only further condition is that some common point is not on the bounding spheres (C106).", "quantifier": "all pairs of objects with the stated sizes, all triangulations, all random samples", "why_tests_cant": "Needs a bound on accumulated rounding errors over all inputs, triangulations and samples.", "anchors": ["src/pyqcstrc/ico2/two_occupation_domains.py::intersection", "src/pyqcstrc/ico2/intsct.py::intersection_two_obj_1", "src/pyqcstrc/ico2/intsct.py::check_intersection_two_tetrahedron_4", "src/pyqcstrc/ico2/intsct.py::intersection_two_tetrahedron_4"]}
{"id": "C96", "title": "generate_border_edges returns the edges of a solid", "statement": "For an object made of tetrahedra of non-zero volume that fit face to face, none of whose surface vertices is nearly (but not exactly) in line with two others, generate_border_edges(obj) in exact arithmetic returns a set of segments that covers exactly the borders of the flat parts of the surface: every point drawn lies on the boundary of the object and nowhere where the boundary is flat. There is at least one segment, the ends of a segment are different vertices of the object and no two segments continue one another in a straight line. This holds for all random samples with which the coplanarity check tells coplanar from other pairs of faces, which it does as soon as one sampled triple spans a triangle that is not tiny. With unlucky samples it fails: an edge across a flat face is returned.", "quantifier": "all such objects, all random samples as stated", "why_tests_cant": "The claim is about all points of the segments and of the surface, for all shapes (also non-convex ones), numbers of tetrahedra and random samples.", "anchors": ["src/pyqcstrc/ico2/occupation_domain.py::generate_border_edges", "src/pyqcstrc/ico2/utils.py::surface_cleaner", "src/pyqcstrc/ico2/utils.py::generator_surface_1"]}
{"id": "C97", "title": "Convex hull and simplification keep the shape", "statement": "Under the conditions of C96, with a triangulation routine that covers the hull of its points, generate_convex_hull(obj) in exact arithmetic returns an object that occupies exactly the convex hull of the vertices of obj; and if obj is convex, whatever simplification(obj) returns occupies exactly the same region as obj.", "quantifier": "all such objects, all random samples as in C96, all triangulations as stated", "why_tests_cant": "Equality of regions is a statement about all points, for every shape and triangulation.", "anchors": ["src/pyqcstrc/ico2/utils.py::generate_convex_hull", "src/pyqcstrc/ico2/occupation_domain.py::simplification"]}
{"id": "C98", "title": "Sorting of vectors keeps them and orders them", "statement": "sort_vctors (icosahedral and dodecagonal) of a set of 6-dimensional vectors returns the same vectors, each as often as it was given, whatever the arithmetic and the order numpy's argsort gives to ties. In exact arithmetic they come in ascending order of the first perpendicular coordinate; in binary64 up to 20 A / 2^51 if the coordinates (a + b x)/c satisfy |a| + 2|b| <= A|c|, with A up to a million. For coordinates near 2^53 the order is wrong: two vectors whose coordinates differ by more than 1/4 come in descending order.", "quantifier": "all sets of vectors, all argsort algorithms that sort", "why_tests_cant": "The claim covers all sets, all tie-breaking orders of an unstable sorting algorithm and the accumulated rounding error of all coordinates.", "anchors": ["src/pyqcstrc/ico2/utils.py::sort_vctors", "src/pyqcstrc/dode2/utils.py::sort_vctors"]}
{"id": "C99", "title": "Dodecagonal geometric tests are right in float64 away from the border", "statement": "For dodecagonal vectors with coordinates (a + b sqrt3/2)/c, |a| + 2|b| <= A|c|, the perpendicular coordinates computed in binary64 are finite and off by at most 10 A / 2^51. In a plane figure of extent D, with A and D moderate and a triangle not too thin, inside_outside_triangle accepts every point of the closed triangle and rejects every point with a barycentric coordinate of at most -1e-6. The test for the intersection of two segments rejects exactly parallel segments, accepts segments that cross at least 1e-6 of their length away from their ends, and accepts only segments that come within 1e-6 of a common point, if they are exactly parallel or the angle between them is not too small. Segments that touch in an end point can be missed.", "quantifier": "all vectors, triangles and segments of moderate size, all rounding errors", "why_tests_cant": "The claim bounds the rounding error of every intermediate result for all exact coordinates; tests sample a few.", "anchors": ["src/pyqcstrc/dode2/numericalc.py::inside_outside_triangle", "src/pyqcstrc/dode2/numericalc.py::check_intersection_two_segment_numerical", "src/pyqcstrc/dode2/numericalc.py::get_internal_component_numerical"]}
{"id": "C100", "title": "Intersection of dodecagonal objects in float64", "statement": "If intersection() of two dodecagonal objects, computed in binary64, returns a result, each of its points lies in a triangle of either object up to 1e-6 in barycentric coordinates, and exactly in both objects if no vertex and no crossing lies within 1e-6 outside. No point that two triangles have in common is lost if one contains the other or two of their edges cross away from their ends, no two edges meet within 1e-6 of an end other than in a vertex, and some common point is not on the bounding circles (C107), unless the common part is contained in a line. If vertices of one triangle lie on edges of the other, the intersection can be empty although the triangles have a triangle in common.", "quantifier": "all objects made of triangles of moderate size in one plane, all triangulations", "why_tests_cant": "The claim is about the points of all results for all inputs with the accumulated rounding error of all tests.", "anchors": ["src/pyqcstrc/dode2/two_occupation_domains.py::intersection", "src/pyqcstrc/dode2/intsct.py::intersection_two_obj_1", "src/pyqcstrc/dode2/intsct.py::intersection_two_triangles"]}
{"id": "C101", "title": "Whole icosahedral computations are exact on the machine within stated bounds", "statement": "In the code as it runs (int64 products that wrap, float64 quotients that are truncated, float64 sign test), for coordinates that are (a + b tau)/q with |a|, |b| <= M on a common denominator q: the projection of a vector, the translation of an object, its 120 images under the group and the centroid of points are the exact ones when M q is at most about 10^15 (see the theorems), and the volume of a tetrahedron and the total volume of an object with n tetrahedra are the exact volumes when M q <= 3000 and n (M q)^3 <= 1.6 10^10, if no tetrahedron is nearly but not exactly flat compared with its size. Without the condition on flatness the volume can come out negative; without the bound it is wrong by orders of magnitude, and nothing is raised.", "quantifier": "all 6-d vectors, tetrahedra (triangles), objects and denominators within the stated bounds", "why_tests_cant": "Every intermediate product, common denominator and quotient has to stay within range for all inputs; overflow and truncation raise no error, so a test only sees the inputs it tries.", "anchors": ["src/pyqcstrc/ico2/utils.py::tetrahedron_volume_6d", "src/pyqcstrc/ico2/utils.py::tetrahedron_volume", "src/pyqcstrc/ico2/utils.py::obj_volume_6d", "src/pyqcstrc/ico2/utils.py::shift_object", "src/pyqcstrc/ico2/symmetry.py::generator_obj_symmetric_obj", "src/pyqcstrc/ico2/math1.py::projection3", "src/pyqcstrc/ico2/math1.py::centroid"]}
{"id": "C102", "title": "Whole dodecagonal computations are exact on the machine within stated bounds", "statement": "The same for coordinates that are (a + b sqrt3/2)/q with |a|, |b| <= M on a common denominator q: projection, translation, the 24 images and centroids are exact when M q is at most about 10^14, and the area of a triangle and the total area of n triangles when M q <= 10^5 and n (M q)^2 <= 10^10, if no triangle is nearly but not exactly flat compared with its size. Without the condition on flatness the area can come out negative; without the bound it is wrong, and nothing is raised.", "quantifier": "all 6-d vectors, tetrahedra (triangles), objects and denominators within the stated bounds", "why_tests_cant": "Every intermediate product, common denominator and quotient has to stay within range for all inputs; overflow and truncation raise no error, so a test only sees the inputs it tries.", "anchors": ["src/pyqcstrc/dode2/utils.py::triangle_area_6d", "src/pyqcstrc/dode2/utils.py::triangle_area", "src/pyqcstrc/dode2/utils.py::obj_area_6d", "src/pyqcstrc/dode2/utils.py::shift_object", "src/pyqcstrc/dode2/symmetry.py::generator_obj_symmetric_obj", "src/pyqcstrc/dode2/math1.py::projection3", "src/pyqcstrc/dode2/math1.py::centroid"]}
{"id": "C103", "title": "Crossing points of icosahedral polyhedra are exact on the machine within stated bounds", "statement": "In the code as it runs (int64 products that wrap, float64 quotients that are truncated, float64 test), for vertices with coordinates (a + b tau)/q, |a| + 2|b| <= K, with K^2 q <= 437 and K^7 q <= 1.67 10^7 (K <= 10 for q = 1): the crossing point of a segment and a triangle is the one of exact arithmetic, hence exactly on the segment's line and in the triangle's plane, and the list of points from which the intersection of two tetrahedra is built is the exact one. Beyond the bounds the point is silently wrong: integer coordinates up to 100 suffice, and with coefficients up to 200 a coordinate is off by more than 200.", "quantifier": "all pairs of a segment and a triangle (two segments; two tetrahedra or triangles) with coordinates within the stated bounds", "why_tests_cant": "Intermediate products reach the sixth to ninth power of the coordinates; overflow and truncation raise no error, so a test only sees the inputs it tries.", "anchors": ["src/pyqcstrc/ico2/intsct.py::intersection_segment_surface", "src/pyqcstrc/ico2/intsct.py::intersection_two_tetrahedron_4", "src/pyqcstrc/ico2/math1.py::div"]}
{"id": "C104", "title": "Crossing points of dodecagonal polygons are exact on the machine within stated bounds", "statement": "The same for dode2 and coordinates (a + b sqrt3)/q, |a| + 2|b| <= K, with K^2 q <= 11: the crossing point of two segments and the list of points from which the intersection of two triangles is built are those of exact arithmetic. The bound is small because the formula multiplies four scalar products: integer coordinates up to 27 suffice for a wrong point, and coefficients up to 15 for one that is off by more than 1/2, with nothing raised.", "quantifier": "all pairs of a segment and a triangle (two segments; two tetrahedra or triangles) with coordinates within the stated bounds", "why_tests_cant": "Intermediate products reach the sixth to ninth power of the coordinates; overflow and truncation raise no error, so a test only sees the inputs it tries.", "anchors": ["src/pyqcstrc/dode2/intsct.py::intersection_two_segment", "src/pyqcstrc/dode2/intsct.py::intersection_segment_surface", "src/pyqcstrc/dode2/intsct.py::intersection_two_triangles", "src/pyqcstrc/dode2/math1.py::div"]}
{"id": "C105", "title": "The coplanarity check in float64", "statement": "In IEEE double precision, for points with coordinates of at most A that differ by at most D in each direction (A, D moderate): if coplanar_check answers True, all points lie within 1.3e-4 + (A+D) D^2 / 2e6 of one plane, whatever points it sampled; if it answers False and (A+D) D^2 <= 250, the points are not exactly coplanar; and it never raises. Beyond that size exactly coplanar points can be said not to be: a parallelogram with integer coordinates up to 20 is one.", "quantifier": "all lists of more than three points of the stated size, all random samples", "why_tests_cant": "The samples are random and the rounding errors depend on every coordinate; a test sees a few of both.", "anchors": ["src/pyqcstrc/ico2/numericalc.py::coplanar_check_numeric_tau", "src/pyqcstrc/ico2/math1.py::coplanar_check"]}
{"id": "C106", "title": "The bounding-sphere test of icosahedral objects in float64 loses no overlapping pair", "statement": "In IEEE double precision, with coordinates relative to the centroids of at most A <= 1e6: the radius computed for an object reaches each of its points up to A/1e14, and a tetrahedron that has a point in common with the object passes the distance test, if the point is deeper than A/1e13 inside the sphere about one of the two centroids. Without that condition it can fail: two tetrahedra that share a vertex in which their spheres touch are declared far apart.", "quantifier": "all tetrahedra and objects of the stated size, all common points", "why_tests_cant": "The test compares sums of rounded square roots without a tolerance; whether a pair is dropped depends on the last bits of every input.", "anchors": ["src/pyqcstrc/ico2/intsct.py::rough_check_intersection_tetrahedron_obj", "src/pyqcstrc/ico2/intsct.py::ball_radius_obj", "src/pyqcstrc/ico2/intsct.py::distance_in_perp_space"]}
{"id": "C107", "title": "The bounding-circle test of dodecagonal objects in float64 loses no overlapping pair", "statement": "The same for the triangles of dode2: in double precision the computed radius reaches each point of the object up to A/1e14, and a triangle that has a point in common with the object passes the distance test if the point is deeper than A/1e13 inside the circle about one of the two centroids; two triangles that share a vertex in which their circles touch can be declared far apart.", "quantifier": "all triangles and objects of the stated size, all common points", "why_tests_cant": "The test compares sums of rounded square roots without a tolerance; whether a pair is dropped depends on the last bits of every input.", "anchors": ["src/pyqcstrc/dode2/intsct.py::rough_check_intersection_triangle_obj", "src/pyqcstrc/dode2/intsct.py::ball_radius_obj", "src/pyqcstrc/dode2/intsct.py::distance_in_perp_space"]}
{"id": "C108", "title": "The geometric answers do not depend on how the linear algebra library orders its operations", "statement": "np.dot of two 3-vectors of moderate size, evaluated in double precision in any order of the additions and with or without fused multiply-adds, is finite, off by at most 5*2^-53 times the scalar product of the absolute values (plus 2^-1000), and not negative for a vector with itself; the textbook determinant, and the one numpy computes (LU factorisation with partial pivoting, the pivots multiplied through their logarithms) when log and exp are accurate to one unit in the last place, are off by at most 1200*2^-53 M^3 for entries up to M. The float64 properties C93-C95, C99, C100 and C105-C107 hold for every np.dot and np.linalg.det within these bounds; in particular two installations give the same answer to inside_outside_tetrahedron unless the point is outside by less than 1e-6 in barycentric coordinates. The numbers np.dot returns do depend on the order.", "quantifier": "all evaluation orders, all vectors of the stated size, all points and tetrahedra as in C93", "why_tests_cant": "A test runs one BLAS on one processor; which order and which fused operations are used varies with the installation.", "anchors": ["src/pyqcstrc/ico2/numericalc.py::inside_outside_tetrahedron", "src/pyqcstrc/ico2/numericalc.py::tetrahedron_volume_numerical", "src/pyqcstrc/ico2/numericalc.py::check_intersection_segment_surface_numerical", "src/pyqcstrc/dode2/numericalc.py::inside_outside_triangle"]}
{"id": "C109", "title": "The .pod and .atm files, read as text, say what was meant", "statement": "The .pod and .atm files written by write_podatm and obj2podatm can be read back line by line: the number of entries, each entry's number, the number of vectors and as many lines ej= with six decimal numbers, the number and indices after nth=, each atom's number and the number of its entry, six numbers after x= and after xi=. With vertices whose coefficients are at most about a million, the numbers after ej= and xi= differ by at most 0.51 millionths from the exact values (difference from the first vertex of the row, resp. shifted first vertex; for obj2podatm the vertex itself), those after x= by at most 0.51 thousandths from the exact position, although the program computes in double precision; the indices, read back, spell out the rows given (resp. the vertices other than the common one). The three decimals after x= do not keep the position: different positions give identical files.", "quantifier": "all vertex lists with coefficients up to 2^20 and denominators up to 2^53, all positions and shifts of that size, all lists of rows of valid vertex numbers; all objects with a common vertex whose projections are distinct; any serial number; for the layout any formatting of the numbers as a word", "why_tests_cant": "A test compares a few files; separators, counts and rounding have to be right for every number of rows, sign and width of the numbers.", "anchors": ["src/pyqcstrc/ico2/occupation_domain.py::write_podatm", "src/pyqcstrc/ico2/occupation_domain.py::obj2podatm", "src/pyqcstrc/dode2/occupation_domain.py::obj2podatm"]}
{"id": "C110", "title": "The .vesta files show the edges they were written for", "statement": "The file write_vesta writes for a list of edges can be read back, molecule by molecule: one atom for each distinct projected vertex, at the exact perpendicular-space position to within 0.51 millionths, each with a label of its own that also appears in the tables of thermal parameters and sites, and every kind of bond in the colour asked for. Reading the bond table as VESTA does (two atoms are joined if their labels or elements match an entry and their distance, between the printed positions, lies in the printed range), two atoms are joined exactly if an edge joins their vertices, in both packages, with double-precision distances and two-decimal ranges. dode2 with select='normal' writes one molecule per item, in which any two atoms no farther apart than 10 are joined and no others: sides longer than 10 are missing, and diagonals are drawn. A colour name of three letters other than red makes the writers fail with a TypeError in the middle of the file; every other name stands for a colour.", "quantifier": "all non-empty lists of edges (items of at least two 6D vectors) with coefficients up to a million, all one-line paths and names, all colours, any BLAS whose dot products keep to the usual error bound", "why_tests_cant": "A test looks at a few pictures; the bond ranges come from rounded distances between rounded positions, and whether an edge can fall outside its own range, or catch another pair, has to be settled for all edges.", "anchors": ["src/pyqcstrc/ico2/occupation_domain.py::write_vesta", "src/pyqcstrc/dode2/occupation_domain.py::write_vesta"]}
{"id": "C111", "title": "The intersection of two icosahedral objects runs exactly on the machine within stated bounds", "statement": "intersection() of two objects, run with int64 products that wrap and float64 quotients that are truncated, gives the very result (also nothing, or an exception) that exact integers would give with the same float64 tests, provided the vertices keep to the bounds of C103 and the corners of each common part have small coordinates: a common denominator q <= 250, numerators up to M with M q <= 3000, and no four corners spanning a tiny tetrahedron. So it lies in both objects up to 2 millionths, and loses no common point unless the common part is thin, as in exact arithmetic (C95). The second condition is needed: vertices with coordinates 0, 1, 2 and tau up to sign give corners too fine for the volumes that decide which pieces are kept, and a common part, found exactly, whose volume comes out almost twice as large.", "quantifier": "all pairs of objects made of tetrahedra with coordinates within the stated bounds (up to 20000 tetrahedra in the second), all triangulations with a bounded number of simplices, any BLAS whose dot products and determinants keep to the usual error bound", "why_tests_cant": "Denominators multiply along the way from vertices to crossing points to centres to volumes; overflow raises no error and strikes only some inputs.", "anchors": ["src/pyqcstrc/ico2/two_occupation_domains.py::intersection", "src/pyqcstrc/ico2/intsct.py::intersection_two_obj_1", "src/pyqcstrc/ico2/intsct.py::intersection_two_tetrahedron_4", "src/pyqcstrc/ico2/utils.py::tetrahedralization_points"]}
{"id": "C112", "title": "The intersection of two dodecagonal objects runs exactly on the machine within stated bounds", "statement": "The same as C111 for dode2: intersection() of two objects of triangles that keep to the bounds of C104, run with int64 products that wrap and float64 quotients that are truncated, gives the very result (also nothing, or an exception) that exact integers would give with the same float64 tests, provided the corners of each common part have small coordinates: a common denominator q <= 1000, numerators up to M with M q <= 100000, and no three corners spanning a tiny triangle. So it lies in both objects, up to a millionth or, when no vertex or crossing is too close for the tests, exactly, and loses no common point unless the common part is thin (C100).", "quantifier": "all pairs of objects made of triangles with coordinates within the stated bounds (up to 100000 triangles in the second), all triangulations, any BLAS whose dot products keep to the usual error bound", "why_tests_cant": "Denominators multiply along the way from vertices to crossing points to centres to areas; overflow raises no error and strikes only some inputs.", "anchors": ["src/pyqcstrc/dode2/two_occupation_domains.py::intersection", "src/pyqcstrc/dode2/intsct.py::intersection_two_obj_1", "src/pyqcstrc/dode2/intsct.py::intersection_two_triangles", "src/pyqcstrc/dode2/utils.py::triangulation_points"]}
{"id": "C113", "title": "Comparisons of icosahedral points, faces and edges are right on the machine within stated bounds", "statement": "With int64 products that wrap and float64 quotients that are truncated, remove_doubling_in_perp_space keeps exactly one vector for every point of perpendicular space, equivalent_tetrahedra, equivalent_triangles, equivalent_edges and equivalent_vertices answer whether the two have the same vertices in perpendicular space, and check_connectivity_tetrahedra whether two tetrahedra have three vertices in common, as long as coordinates have a common denominator q <= 90000000 and numerators up to B with B q <= 10^15. Under 4 B q <= 10^15 the surface, the unique triangles and the unique edges of an object are those exact integers would give with the same floating-point comparison of centres. Points farther out can be taken for one: 2^53 and 2^53 + 1 along an axis are.", "quantifier": "all lists of vectors, pairs of tetrahedra, triangles, edges and objects within the stated bounds; any floating-point arithmetic for the centres", "why_tests_cant": "Overflow and rounding raise no error; two different points only coincide for particular coordinates.", "anchors": ["src/pyqcstrc/ico2/utils.py::remove_doubling_in_perp_space", "src/pyqcstrc/ico2/utils.py::equivalent_tetrahedra", "src/pyqcstrc/ico2/utils.py::equivalent_triangles", "src/pyqcstrc/ico2/utils.py::equivalent_edges", "src/pyqcstrc/ico2/utils.py::equivalent_vertices", "src/pyqcstrc/ico2/utils.py::check_connectivity_tetrahedra", "src/pyqcstrc/ico2/utils.py::generator_surface_1", "src/pyqcstrc/ico2/utils.py::generator_unique_triangles", "src/pyqcstrc/ico2/utils.py::generator_unique_edges"]}
{"id": "C114", "title": "Comparisons of dodecagonal points and edges are right on the machine within stated bounds", "statement": "The same as C113 for dode2: de-duplication keeps exactly one vector for every point of perpendicular space and the tests of equivalence of triangles, edges and vertices are right when coordinates have a common denominator q <= 20000000 and numerators up to B with B q <= 10^14; the unique edges of an object of triangles are those exact integers would give under 4 B q <= 10^15 and q <= 90000000. Points farther out can be taken for one.", "quantifier": "all lists of vectors, pairs of triangles and edges and objects of triangles within the stated bounds; any floating-point arithmetic for the midpoints", "why_tests_cant": "Overflow and rounding raise no error; two different points only coincide for particular coordinates.", "anchors": ["src/pyqcstrc/dode2/utils.py::remove_doubling_in_perp_space", "src/pyqcstrc/dode2/utils.py::equivalent_triangles", "src/pyqcstrc/dode2/utils.py::equivalent_edges", "src/pyqcstrc/dode2/utils.py::equivalent_vertices", "src/pyqcstrc/dode2/utils.py::generator_unique_edges"]}
{"id": "C115", "title": "The surface and edges of a solid are right when computed in int64 and float64", "statement": "Take an object of non-degenerate tetrahedra glued face to face whose coordinates have a common denominator q <= 90000000 and numerators up to B with 4 B q <= 10^15 and 3 B <= 100000 q, in which no point of perpendicular space is written with two different 6-d vectors, and in which the centres of two faces coincide or differ in some coordinate by more than 2e-8 + 2e-5 times its size. Then generator_surface_1, with integers that wrap and float64 comparisons, returns triangles that together are exactly the boundary of the region the object fills. Likewise generator_unique_triangles and generator_unique_edges return exactly one triangle for every face and one segment for every edge, and gen_border_edges_of_coplanar_triangles exactly the edges that belong to one triangle, when two faces (edges) have the same vertices or centres that far apart.", "quantifier": "all objects within the stated bounds and separations; any linear algebra routine behind the float64 operations", "why_tests_cant": "Rounding of centres decides which faces count as equal; without the conditions on names and distances the result can be wrong (C24, C25, C80, C90), and only a proof shows that they are enough.", "anchors": ["src/pyqcstrc/ico2/utils.py::generator_surface_1", "src/pyqcstrc/ico2/utils.py::generator_unique_triangles", "src/pyqcstrc/ico2/utils.py::generator_unique_edges", "src/pyqcstrc/ico2/utils.py::gen_border_edges_of_coplanar_triangles"]}
{"id": "C116", "title": "The edges and the boundary of a flat dodecagonal object are right when computed in int64 and float64", "statement": "For dode2 objects of triangles whose coordinates have a common denominator q and numerators up to B with 3 B <= 100000 q, no point written with two different 6-d vectors, and any two edges having the same end points or midpoints that differ in some coordinate by more than 2e-8 + 2e-5 times its size: generator_unique_edges, with integers that wrap and float64 comparisons, returns exactly one segment for every edge (q <= 90000000, 4 B q <= 10^15), and gen_border_edges_of_coplanar_triangles exactly the edges that belong to one triangle (q <= 20000000, B q <= 10^14). If the triangles lie in one plane, are not degenerate and meet edge to edge, these edges together are exactly the boundary of the region the object fills.", "quantifier": "all objects of triangles within the stated bounds and separations; any linear algebra routine behind the float64 operations", "why_tests_cant": "Rounding of midpoints decides which edges count as equal; that no admissible object is treated wrongly needs an error analysis.", "anchors": ["src/pyqcstrc/dode2/utils.py::generator_unique_edges", "src/pyqcstrc/dode2/utils.py::gen_border_edges_of_coplanar_triangles"]}
{"id": "C117", "title": "outline() of a flat dodecagonal object is its boundary when computed in int64 and float64", "statement": "Take a dode2 object of non-degenerate triangles in one plane that meet edge to edge, with coordinates of common denominator q <= 20000000 and numerators up to B with B q <= 10^14 and 3 B <= 100 q, no point written with two different 6-d vectors, edges having the same midpoint or midpoints that differ in some coordinate by more than 2e-8 + 2e-5 times its size, and no vertex within 3/2000 of, but off, the segment between two others. Whenever every triangle is found coplanar with the first one by the float64 test, outline(), with integers that wrap and float64 tests, ends without an error and the segments it returns together are exactly the boundary of the region the object fills; their ends are different vertices of the object, and no two of them continue one another in a straight line.", "quantifier": "all such objects and random samples; any linear algebra routine within its documented error behind the float64 operations", "why_tests_cant": "Joining segments depends on a rounded test whether a point lies on a segment; that no admissible object is joined wrongly or left unjoined needs an error analysis and the invariant of the joining loop.", "anchors": ["src/pyqcstrc/dode2/occupation_domain.py::outline", "src/pyqcstrc/dode2/utils.py::surface_cleaner", "src/pyqcstrc/dode2/utils.py::two_segment_into_one", "src/pyqcstrc/dode2/numericalc.py::point_on_segment"]}
{"id": "C118", "title": "The float64 coplanarity test of dode2 succeeds on a flat object whenever a sample of three points is not too narrow", "statement": "Take two dode2 triangles whose vertices all have the same sixth coordinate, with coordinates of common denominator q <= 20000000 and numerators up to B with B q <= 10^14 and 3 B <= 100 q. The test coplanar_check_two_triangles, with integers that wrap, float64 arithmetic and any linear algebra routine within its documented error, returns True if the triangles have at most three different vertices or one of the random samples spans a triangle of area at least 1e-6, and False if there are more vertices and every sample spans an area of at most 2.5e-7; it never fails because of rounding in the scalar product it compares with 1e-10. Hence outline() of an object as in C117 with a common sixth coordinate draws exactly the boundary of the object as soon as, for every triangle and the first one, one sample spans an area of at least 1e-6.", "quantifier": "all such pairs of triangles and objects, all random samples, any linear algebra routine within its documented error", "why_tests_cant": "The samples are random and the tolerance 1e-10 is compared with a product of rounded numbers; only an analysis for every input shows that the product is as good as zero.", "anchors": ["src/pyqcstrc/dode2/utils.py::coplanar_check_two_triangles", "src/pyqcstrc/dode2/numericalc.py::coplanar_check_numeric", "src/pyqcstrc/dode2/occupation_domain.py::outline"]}
{"id": "C119", "title": "generate_border_edges() of ico2 returns the edges of a solid when run with int64 and float64", "statement": "Take an ico2 object of tetrahedra of non-zero volume that fit face to face, with coordinates of common denominator q <= 90000000 and numerators up to B with 4 B q <= 10^15 and 3 B <= 100 q, in which every vertex is written in one way, the centres of faces and the midpoints of edges are equal or differ by more than twice the tolerance of np.allclose, and no vertex is nearly (but not exactly) on a line with two others. If the coplanarity check answers right for every two triangles of the surface, generate_border_edges(), with integers that wrap, float64 arithmetic and any linear algebra routine within its documented error, returns segments that cover exactly the borders of the flat parts of the surface. Every point drawn lies on the boundary of the object and not where the boundary is flat; the ends of a segment are different vertices of the object, and no two segments continue one another in a straight line. The check answers right for two triangles of moderate extent, any four vertices of which lie in one plane or clearly not, as soon as one random sample spans a triangle with a component of the normal vector of at least 2e-6.", "quantifier": "all such objects, all random samples with which the coplanarity check answers right, any linear algebra routine within its documented error", "why_tests_cant": "The result passes through random samples, int64 arithmetic and four float64 tolerances; no finite set of objects shows that rounding never drops, keeps or joins a wrong edge.", "anchors": ["src/pyqcstrc/ico2/occupation_domain.py::generate_border_edges", "src/pyqcstrc/ico2/utils.py::surface_cleaner", "src/pyqcstrc/ico2/utils.py::coplanar_check_two_triangles", "src/pyqcstrc/ico2/utils.py::two_segment_into_one", "src/pyqcstrc/ico2/numericalc.py::point_on_segment"]}
{"id": "C120", "title": "For icosahedral objects with small coordinates no condition on the centres is needed", "statement": "Take an ico2 object of tetrahedra of non-zero volume that fit face to face, in which every vertex is written in one way and all coordinates, brought to one denominator q, have numerators up to 6. If q <= 5000, the centres of two faces, or of two edges, are the same point or are told apart by np.allclose, so the surface computed with int64 and float64 is the boundary of the object. If q <= 7 and the object is of moderate extent, the float64 coplanarity check answers right for two triangles as soon as one random sample consists of three points not on one line; and if this is so for every two triangles of the surface and no vertex is nearly (but not exactly) on a line with two others, generate_border_edges() returns segments that cover exactly the borders of the flat parts of the surface, all of them where the boundary of the object is not flat.", "quantifier": "all such objects, all random samples that are not all degenerate, any linear algebra routine within its documented error", "why_tests_cant": "Different numbers a + b tau can be arbitrarily close to each other; that no two centres of small coordinates fall within the tolerance is an arithmetic fact about all of them.", "anchors": ["src/pyqcstrc/ico2/occupation_domain.py::generate_border_edges", "src/pyqcstrc/ico2/utils.py::generator_surface_1", "src/pyqcstrc/ico2/utils.py::coplanar_check_two_triangles", "src/pyqcstrc/ico2/utils.py::surface_cleaner"]}
{"id": "C121", "title": "For flat dodecagonal objects with small coordinates no condition on the midpoints is needed", "statement": "Take a flat dode2 object of triangles of non-zero area that fit edge to edge, in which every vertex is written in one way. If all coordinates, brought to one denominator q <= 4000, have numerators up to 4, the midpoints of two edges are the same point or are told apart by np.allclose, so the border edges found with int64 and float64 draw exactly the boundary of the object. If the numerators are up to B with q B <= 3, all vertices have the same sixth coordinate, no vertex is nearly (but not exactly) on a line with two others, and for every triangle and the first one some random sample consists of three points not on one line, outline() with int64 and float64 draws exactly the boundary of the object.", "quantifier": "all such objects, all random samples that are not all degenerate, any linear algebra routine within its documented error", "why_tests_cant": "Different numbers a + b sqrt 3 can be arbitrarily close to each other; that no two midpoints of small coordinates fall within the tolerance is an arithmetic fact about all of them.", "anchors": ["src/pyqcstrc/dode2/occupation_domain.py::outline", "src/pyqcstrc/dode2/utils.py::gen_border_edges_of_coplanar_triangles", "src/pyqcstrc/dode2/utils.py::coplanar_check_two_triangles", "src/pyqcstrc/dode2/utils.py::surface_cleaner"]}
{"id": "C122", "title": "Surfaces and boundaries of objects with small rational coordinates are right when run with int64 and float64", "statement": "If the vertices of an ico2 object are in lowest terms and all have rational coordinates, or all have the same part in parallel space, no point of perpendicular space is written in two ways; in dode2 the same holds if moreover the fifth coordinates agree. So for a face-to-face ico2 solid of tetrahedra of non-zero volume whose coordinates are rational numbers in lowest terms with a common denominator q <= 5000 and numerators, on that denominator, up to 6, the surface computed with int64 and float64 consists of different faces of the solid and is its boundary; and for a flat edge-to-edge dode2 object of triangles of non-zero area with the same fifth coordinates, q <= 4000 and numerators up to 4, the border edges draw exactly the boundary.", "quantifier": "all such objects, any linear algebra routine", "why_tests_cant": "It must hold for every object with such coordinates; the sorting of rounded centres depends on the last bit of each of them.", "anchors": ["src/pyqcstrc/ico2/utils.py::generator_surface_1", "src/pyqcstrc/dode2/utils.py::gen_border_edges_of_coplanar_triangles", "src/pyqcstrc/ico2/math1.py::projection3", "src/pyqcstrc/dode2/math1.py::projection3"]}
{"id": "C123", "title": "The edges of an object with small coordinates are each listed once, computed with int64 and float64", "statement": "In a face-to-face ico2 solid of tetrahedra of non-zero volume, two edges of tetrahedra with the same midpoint have the same end points. If moreover the coordinates have a common denominator q <= 5000 and, on that denominator, numerators up to 6, and no point of perpendicular space is written in two ways, then the routine that lists the edges of the solid, run with int64 and float64, returns edges of its tetrahedra only, no two the same, and for every edge of a tetrahedron exactly one edge with the same end points. In dode2 the same holds for the edges of the triangles of a flat edge-to-edge object of triangles of non-zero area, with q <= 4000 and numerators up to 4.", "quantifier": "all such objects, any linear algebra routine", "why_tests_cant": "It must hold for every solid with such coordinates; edges are identified by sorting rounded midpoints, which depends on the last bit of each of them and on no two different edges having the same midpoint.", "anchors": ["src/pyqcstrc/ico2/utils.py::generator_unique_edges", "src/pyqcstrc/ico2/utils.py::generator_all_edges", "src/pyqcstrc/ico2/math1.py::projection3", "src/pyqcstrc/dode2/utils.py::generator_unique_edges"]}
