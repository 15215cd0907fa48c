# Formal model of pyqcstrc (ico2 / dode2) in Rocq (Coq 8.16.1)

`/repo` is read as text only; nothing is run. All models are hand-written from
the source. Every definition of `theories/Model/*.v` cites the file and lines
it models and says where it simplifies.

## 1. Layout

| directory | contents |
|---|---|
| `theories/Base`  | result monad (`res A := Ok a \| Raise e`), list helpers |
| `theories/Model` | the model: computable functions, no proofs |
| `theories/Spec`  | what the properties talk about: real value of a triple, real vectors, determinants, tetrahedra, regions, groups, text fields. Small and independent of the model's helpers. `Samples.v` holds data for the Examples |
| `theories/Proofs`| lemmas; `P_X.v` holds the lemmas restated in `Props/X.v` |
| `theories/Props` | one file per area holding only `Theorem ... exact lemma.`, `Example`s showing the hypotheses can be met, and `Print Assumptions` |

`MANIFEST.json` maps property ids (`properties.jsonl`) to theorem names;
`seeded/LOG.jsonl` records the wrong programs the theorems were tried against.

## 2. How Python is represented

* **TAU-style number** `[a,b,c]`: a record of three `Z` (`T a b c`).
* **numpy arrays**: nested lists (`vec = list tau`, `vecs = list vec`,
  `obj4 = list vecs`). Functions that branch on `ndim` take the inductive
  `arr` (`A1..A5|AX`), so the "wrong ndim" branches exist in the model.
* **Exceptions** are values: `Raise e` with `e` in `IndexError, ValueError,
  TypeError, NameError, UnboundLocalError, ...`. **`return` without value** is
  `Ok None` at type `res (option A)`.
* Indexing is `nth_error`-based; out of range is `Raise IndexError`. Where an
  index can be negative (vertex number 0 in `simple_hand_step2`, vertex tables of
  the POD writer) Python's wrap-around is modelled (`pyitem`).
* **Integers** are unbounded `Z` in the main model. A second model of the
  scalar functions (`Machine.v`) has explicit int64 wrap-around and
  float64 rounding (Flocq); C04 relates the two. `MachineVec.v` and `MachineCross.v`
  run the vector code, volumes, areas, symmetry, translation and crossing points on it
  (C101-C104), `MachineInter.v` and `MachineDodeInter.v` the whole of
  `intersection()` (C111, C112), comparisons of points, faces and edges (C113, C114),
  surfaces, edges and borders together with binary64 centres (C115, C116) and, for dode2, outlines (C117, C118).
* **float64** in the geometric functions: a record `num` (`Model/Num.v`) of the
  operations used. The functions are written once for any `N : num`.
  `Rnum` is exact real arithmetic, `Bmath` is IEEE binary64 (Flocq, executable)
  with `np.dot` and `np.linalg.det` as parameters (`linalg`), `Bnum` is `Bmath`
  with the textbook ones: a sum from left to right and a cofactor expansion.
  Theorems about control flow, shapes and exact triples hold for every `N`, hence
  for binary64. Theorems about geometry are for `Rnum`, and C93-C95, C99, C100 and
  C105-C107 carry them over to `Bmath` with an error analysis, for every `np.dot`
  and `np.linalg.det` within the bounds of `Spec/LinAlg.v` (`linalg_ok`). C108
  proves these bounds for any order of the additions, with or without fused
  multiply-adds, and for numpy's determinant by LU factors and logarithms, assuming
  only that the C library's `log` and `exp` are off by at most one unit in the last
  place. The tolerances (`EPS = 1e-6`, `1e-10`, `np.allclose`) are those
  of the code. Refutations and Examples that depend on rounding are executed in
  `Bnum`, which is one admissible execution of the code.
* **External calls** are explicit function arguments (oracles): scipy's
  Delaunay and ConvexHull, `random.sample`, the `%8.6f` formatter and `float()`.
  What a theorem assumes of an oracle is a hypothesis in its statement. There
  are no axioms.
* **Undefined names and missing attributes** are arguments that are `None` in the
  code as it is (`Model/Absent.v`), so that the repaired function can be
  discussed too.
* **Files** are lists of lines (strings); writers return the text they write.

## 3. Trusted base

* Coq 8.16.1's kernel (`vm_compute` included).
* Axioms: only those of the standard library, see section 6. No axioms,
  parameters, functors, module types or plugins of our own.
* The reading of the source: model against code, by citation.
* For statements about floats, that numpy's float64 operations are those of IEEE
  754 as formalised by Flocq.

## 4. What is modelled, and how each property is proved

Arithmetic (`Model/Tau, IcoScalar, DodeScalar, Machine`; `Spec/Value`):
* **C01, C02, C05, C45, C46** `add/sub/mul/div` with gcd reduction and the failure
  modes (`ValueError` from `int(nan)`, `None`). `val w (T a b c) =
  (a+b*w)/c` in R, `w` = tau or sqrt 3/2. Proof: gcd cancellation, field identities,
  irrationality of `sqrt 5`, `sqrt 3` for the norm form.
* **C03** `a+b*w = a'+b'*w -> a=a', b=b'` for rationals, then gcd=1 forces
  the triples to agree.
* **C04** `Machine`: wrap64, Flocq `round` for the quotient, `Ztrunc` for `int`.
* **C101, C102** (`Model/MachineVec`, `Model/MachineSym` with float64 matrices, `Spec/Grid`) numbers with a common denominator q and
  numerators up to B form classes closed under the operations with explicit growth
  (`Proofs/GridLemmas.v`); as long as the class fits into 2^53 the machine operation is the
  exact one. The sign test (`GridSign.v`): |a + b tau| >= 1/(3 max) for integers, against the
  rounding error of the float. `GridVolume.v`, `GridArea.v` follow the classes through
  projection, determinant and sum.
* **C103, C104** (`Model/MachineCross`) sharper classes: (a + b tau)/q and (a + b sqrt 3)/q
  with |a| + 2|b| <= K, a norm under which products need no constant; quotients by the norm
  form (`Proofs/GridRing.v`). `GridCross.v` follows them through differences, projection,
  vector and scalar products, the quotient and the final sum. Wrong points beyond the bounds
  by evaluation. The float tests are any `num`.
* **C111** (`Model/MachineInter`, `Spec/MachineInter`) `Proofs/GridInter.v` follows `intersection()` step by step:
  centres and bounding spheres, the collected points (C103), removal of doubles, the choice of
  simplices by their volume (C101); the meaning of the result is C95. The wrong volume is found by
  evaluation. **C112** (`Model/MachineDodeInter`, `Proofs/GridDodeInter.v`) is the same for dode2. **C113, C114**
  (`Model/MachineDedup`): de-duplication, equivalence, surfaces and edges, from the exact projection
  and centroid of C101, C102 and the theorems on the exact code (C19, C21, C55, C64, C65).
* **C115, C116** (`Model/MachineBorder`, `Spec/SolidFloat`, `Proofs/SolidFloat.v`) int64 centroids are exact (C113), their
  binary64 projections are within 1e-9 of the real ones, so centres told apart are never close and
  equal centres are bitwise equal; the counting arguments of C24, C25, C80, C90 then apply.
* **C117** (`Model/MachineOutline`, `Proofs/SegFloat.v`) border and edges as C116; the rounded point-on-segment test is
  bounded on both sides (true only within 3/2000, true for every inner point further than that from the ends), and the
  joining loop of C82 is reused with that test.
* **C118** (`Proofs/FlatFloat.v`) equal sixth coordinates give equal doubles, so differences of heights are exactly 0, the
  normal vector is exactly vertical and the scalar product is 0 up to underflow; its length is the doubled area up to 1e-7.
* **C119** (`Model/MachineEdges`, `Spec/EdgesFloat`, `Proofs/CoplanarFloat.v`) surface and borders as C115, C116; a sample whose
  normal vector is wide decides coplanarity rightly in binary64 when the vertices are flat or clearly not flat; the
  grouping and joining arguments of C96 are then reused with the rounded tests.
* **C120** (`Proofs/RingFloor.v`) the product of a + b tau and its conjugate is a non-zero integer, so differences of centres,
  components of normal vectors and volumes are 0 or not small when the conjugates are bounded; C115 and C119 then apply.
* **C121** (`Proofs/RingFloor3.v`) the same with a + b sqrt 3, for midpoints of edges and areas of samples; C116 and C118 then
  apply.
* **C122** perpendicular projection is injective on rational vectors (C09, C47), and on vectors with equal parallel parts; triples
  in lowest terms with equal values are equal.  C120 and C121 then apply.
* **C123** the midpoint of an edge has positive barycentric coordinates at its two ends only, so where tetrahedra meet face to face
  both ends belong to the common part; C115 and C120 then apply, in dode2 C116 and C121.

Vectors, projections, symmetry (`Model/Arr, Vectors, IcoMath1, IcoSymmetry, DodeMath1,
DodeSymmetry`; `Spec/RVec, IcoSpec, DodeSpec`). Code shared by the two packages is generic
in the scalar `add`/`mul`, and proved once:
* **C06, C07, C59-C61** list recursion; weakest-precondition style lemmas; cross
  product identities by `ring`. The wrong index is kept in the model and refuted.
* **C08-C10, C47** matrices as lists; identities by `ring` modulo `w^2`.
* **C11, C12, C48** kernel computation over the integer matrices (120 / 12),
  lifted to real vectors.
* **C79** blocks of the list of images; Python indexing with negative indices.
* **C13, C14, C49, C62** canonical forms make array equality follow from value equality.

Volume, area, shift, centroid, similarity (`Model/Sign, IcoVolume, DodeArea`):
* **C15-C18, C50, C63** the value of the model is the determinant; invariance by `ring`.
  The sign of `a+b*sqrt d` is decided by comparing squares, as an
  idealisation of the float comparison in the code.

De-duplication and sets (`Model/Unique, IcoDedup, DodeDedup`):
* **C19-C23, C51-C53, C55, C64-C66** sorting (`np.unique`) is modelled by insertion
  sort with lexicographic order on rows.

Numerical geometry (`Model/Num, IcoNumeric, DodeNumeric`; `Spec/Space`):
* **C26** the random triples are an argument.
* **C29-C31** real algebraic geometry: barycentric coordinates, Moller-Trumbore.
* **C76, C77** (`Model/Numeric2`) the area and distance tests as inequalities between real
  numbers; triangle inequality and Cauchy-Schwarz.
* **C78** exact and numerical versions denote the same number. **C81** by computation.
* **C82, C84, C86** (dode2 edges, outline, hull): the border edges of an edge-to-edge set of
  triangles are proved to be its topological boundary (`Proofs/Frontier.v`: an edge of two
  triangles is interior because the triangles lie on opposite sides; a vertex without lone
  edges is interior by walking around it). Merging two collinear segments keeps the union.
  The hull then follows from C73 and the covering hypothesis on the triangulation.
* **C83** the answer of the random test as a function of the samples. **C85** by computation.

Surfaces and merging (`Model/IcoSurface`; `Spec/Surface`):
* **C24, C25, C27, C28, C57, C58** counting of faces, groups of coplanar triangles,
  measures; binary64 refutations by computation.
* **C80** as C25, for faces.
* **C90** `Proofs/Frontier3.v`: a face of two tetrahedra is interior because they lie on
  opposite sides of it; a point of an edge or vertex on no lone face is interior, because
  otherwise a generic segment leaving the region nearby, chosen to avoid all edges, would
  leave it through a lone face.

Intersection (`Model/IcoIntersect`; `Spec/Tetra, Overlap`):
* **C32-C37, C56** structural induction, for any arithmetic where possible.
* **C69** `Proofs/Polytope.v`: a bounded intersection of half-spaces is the hull of its
  extreme points; the extreme points of two tetrahedra are vertices or transversal
  edge/face crossings; two tetrahedra with a common point contain one another or
  cross. Combined with C29, C31, C32 (accuracy of the tests), C34 (the distance test
  discards nothing) and C36 (the loops).
* **C91** (`Model/Convex`, `Spec/Convex`) `Proofs/ConvexSets.v`: a convex face-to-face
  solid is the intersection of the half-spaces of its outer faces; a point of two such
  solids is in the hull of corners of one in the other and transversal crossings; the
  edge graph of the surface is connected, so if some corners are inside and some are
  not, an edge crosses. `Proofs/ConvexLemmas.v`, `ConvexMain.v` connect the code.
* **C92** (`Model/Subtract`, `Spec/Subtract`) `Proofs/SubtractLemmas.v`: the search over
  combinations carries the running volume; exact volumes from C13; disjoint objects have
  class 0 by C33 and the tolerance lemmas of C69. The refutation is a binary64 run.
* **C93-C95** (`Spec/Float`) `Proofs/FloatCalc.v`: a calculus of absolute errors for sums,
  products and quotients of doubles whose sizes are tracked (`G k s x r c`: x is finite, of
  size s, within c units of r); `FloatGeom.v` runs it through the projection, cross
  products, volumes and the segment-triangle test; `FloatTests.v` and `FloatOverlap.v`
  conclude as in C29, C32 and C69 with 2e-6 instead of 1e-6.
* **C96, C97** (`Spec/Edges`) `Proofs/PlaneFrontier.v` carries the boundary theorem of
  `Frontier.v` to any plane of space: the border, in its plane, of a union of triangles that
  meet edge to edge is the union of the edges of exactly one triangle.
  `Proofs/EdgeLemmas.v`: the triangles of the surface of a solid in one plane are such a union (two faces of
  the solid meet in common vertices), and merging collinear segments keeps the set drawn.
  `Proofs/BorderLemmas.v`: the groups formed by the coplanarity check are the planes; the
  border edges span the hull of the vertices because every point of the solid lies between two
  boundary points and every boundary point between two border points.
  `Proofs/Caratheodory3.v`: a triangulation as assumed exists.
* **C98** (`Model/Sorting`, `Spec/SortSpec`) `Proofs/SortLemmas.v`: picking the entries at a
  permutation of the positions; `Proofs/DodeFloat.v`: rounding error of the dodecagonal
  projection. The refutation is a binary64 run.
* **C99, C100** (`Spec/PlaneFloat`) the error calculus of C93-C95 for the planar tests:
  `Proofs/DodeFloatGeom.v` (areas, the two parameters of the segment test),
  `DodeFloatTests.v`, `DodeFloatOverlap.v`. For completeness: every corner of the common part of
  two triangles is a vertex of one inside the other, which the inside test accepts, or a
  crossing away from the ends, which the segment test accepts. The refutations are
  binary64 runs.
* **C105-C107, completeness in C95** (`Spec/SpaceFloat`) `Proofs/FloatCoplanar.v`: the unit
  normal and the distances in the coplanarity check with their errors; `FloatBall.v`,
  `DodeFloatBall.v`: the differences are exact triples, so only the norm and one sum are
  rounded. A pair with a deep common point passes the test, its class is not 0 (C94, C95),
  the points found span the common part, and the coplanarity check drops only points near a
  plane.
* **C108** (`Model/LinAlg`, `Spec/LinAlg`) `Proofs/LinAlgLemmas.v`: induction on the evaluation
  plan of a scalar product; the textbook determinant with the calculus of C93.
  numpy's own determinant (`Model/Lapack`, `Spec/Lapack`): backward error of LU factors with
  partial pivoting (`Proofs/LapackLemmas.v`, `GetrfLemmas.v`), `x |ln x|` bounds for the product
  through logarithms (`LogLemmas.v`), both put together in `DetLemmas.v`; correctly rounded
  `log` and `exp` show that the hypotheses can be met (`CorrectRounding.v`).

Dodecagonal intersection (`Model/DodeIntersect`; `Spec/Plane`):
* **C70-C73, C75** structural induction; planar barycentric coordinates.
* **C74** `Proofs/DodeOverlapLemmas.v` (crossings of the edges of two triangles) and
  `Proofs/Caratheodory.v` (planar Caratheodory theorem: the triangulation assumed for
  completeness exists).

Files (`Model/Text, Xyz, Writers, Pod`; `Spec/TextSpec, VestaSpec, PodSpec`):
* **C38-C40, C54, C67** decimal printing/parsing of `Z`, line splitting; the `%8.6f`
  fields are any strings without blanks, and in C38/C54 also binary64.
* **C41, C42** index compaction and common vertex search on lists.
* **C109** (`Model/PodText`; the reader is `Spec/PodText`) `Proofs/PodTextLemmas.v`: the text as a
  list of lines, each line's words; `PodNumLemmas.v`: `%4.3f` and `%8.6f` print the nearest
  decimal number (as C88) of a double close to the exact value (as C89).
* **C110** (`Model/VestaText`; the reader and what VESTA joins are in `Spec/VestaText`, written from
  VESTA's behaviour, not from its code) `Proofs/VestaTextLemmas.v`: the words of each line and the
  tables; `Proofs/VestaDraw.v`: the printed range contains the distance of the printed positions,
  from the error bound of the double-precision distance (`Proofs/FloatBall.v`).

Simplification, broken functions (`Model/Simplify, Absent`):
* **C43** oracles for hull and intersection; executed once in binary64.
* **C44, C68** functions that dereference an undefined name or attribute.

## 5. What is not modelled

Modelled, per source file (everything not listed is not modelled):

| file | modelled | not modelled |
|---|---|---|
| `ico2/math1`, `dode2/math1` | all functions | |
| `ico2/symmetry`, `dode2/symmetry` | all; the pure aliases (`generator_obj_symmetric_surface`, `_tetrahedron`, `_vec`, `_triangle`) are the function they call | |
| `ico2/numericalc` | coplanarity, `point_on_segment`, `on_out_surface`, numerical values, segment/surface and segment/segment tests, inside/outside tests, areas and volumes, projections | thin wrappers (`*_6d_tau`, `*_sets_numerical`, `get_internal_component*`) are inlined where used |
| `ico2/utils` | shift, volumes, de-duplication, surfaces, edges, coplanar sets, border edges, `equivalent*`, merging, triangulation, removal, `sort_vctors` | `sort_obj` (cannot run), `breps` (empty) |
| `ico2/intsct` | all | – |
| `ico2/occupation_domain` | `volume`, `symmetric*`, `shift`, `write`, `write_vesta`, `write_xyz`, `read_xyz`, `simplification`, `obj2podatm`, `simple_hand_step1/2`, `site_symmetry`, `write_podatm`, `generate_border_edges`, `asymmetric` | – |
| `ico2/two_occupation_domains` | `intersection`, `intersection_convex`, `subtraction` | |
| `dode2/numericalc` | all functions (thin wrappers inlined as for ico2) | |
| `dode2/utils` | shift, areas, de-duplication, edges, removal, `triangulation_points`, coplanar sets, border edges, merging of segments, surface cleaning, convex hull, merging of two triangles, `sort_vctors` | `sort_obj` (cannot run) |
| `dode2/intsct` | all except the next column | what follows the undefined names in `intersection_two_obj_convex` and `subtraction_two_obj` |
| `dode2/occupation_domain` | `volume`, `symmetric*`, `shift`, `similarity` and the text functions shared with ico2, `outline`, `generate_border_edges`, `simplification` | |
| `dode2/two_occupation_domains` | `intersection`, `intersection_convex`, `subtraction` | |
| `src_cython`, older packages, examples, docs | | all |

Simplifications that apply throughout: console output (`print`, verbosity levels) is
dropped; the file system is replaced by the text written; scipy and `random` are arguments;
numpy broadcasting and dtype promotion are only modelled where the code branches on
them; running time and memory are not modelled.

## 6. Axioms

R stands for the axioms of the standard library's classical reals:
`ClassicalDedekindReals.sig_forall_dec`, `ClassicalDedekindReals.sig_not_dec`,
`FunctionalExtensionality.functional_extensionality_dep`. Some theorems use in addition
`Classical_Prop.classic` (through Flocq, or directly in C69 and C74). Nothing else occurs; the exact
list is printed by the `Print Assumptions` beneath each theorem.

| file | theorems | closed under the global context | use axioms of the reals (R) | also `classic` |
|---|---|---|---|---|
| `Props/Absent.v` | 15 | 12 | 3 |  |
| `Props/Arith.v` | 15 | 6 | 9 |  |
| `Props/Asymmetric.v` | 5 | 0 | 5 | C87_complete |
| `Props/Convex.v` | 8 | 1 | 7 | 7 |
| `Props/Dedup.v` | 29 | 14 | 15 |  |
| `Props/Dode.v` | 27 | 1 | 26 |  |
| `Props/DodeArith.v` | 9 | 1 | 8 |  |
| `Props/DodeDedup.v` | 19 | 7 | 12 |  |
| `Props/DodeFloat.v` | 11 | 0 | 11 | all |
| `Props/DodeFloatBall.v` | 4 | 0 | 4 | C107_radius, C107_never_discards, C100_all_kept, C107_touching_missed_refuted |
| `Props/DodeIntersect.v` | 21 | 5 | 16 |  |
| `Props/DodeOverlap.v` | 11 | 4 | 7 | C74_nothing_lost, C74_simple_refuted, C74_degenerate_refuted |
| `Props/DodeSite.v` | 14 | 4 | 10 |  |
| `Props/DodeSolidFloat.v` | 3 | 0 | 3 | C116_edges, C116_border, C116_boundary |
| `Props/DodeSurface.v` | 14 | 2 | 12 | C82_outline, C82_segments, C82_unlucky_refuted, C84_patch_border, C86_hull, C43_dode_area_refuted |
| `Props/DodeVec.v` | 33 | 4 | 29 |  |
| `Props/Edges.v` | 7 | 0 | 7 | all |
| `Props/Float.v` | 10 | 0 | 10 | all |
| `Props/FloatBall.v` | 4 | 0 | 4 | C106_radius, C106_never_discards, C95_all_kept, C106_touching_missed_refuted |
| `Props/FloatComplete.v` | 5 | 0 | 5 | C105_true_near, C105_false_right, C105_defined, C105_coplanar_missed_refuted, C95_nothing_lost |
| `Props/Intersect.v` | 24 | 8 | 16 |  |
| `Props/LinAlg.v` | 7 | 0 | 7 | all |
| `Props/Machine.v` | 10 | 0 | 10 | all |
| `Props/MachineCross.v` | 10 | 0 | 10 | all |
| `Props/MachineDedup.v` | 12 | 0 | 12 | all |
| `Props/MachineDodeInter.v` | 4 | 0 | 4 | C112_same, C112_sound, C112_sound_exact, C112_all_kept |
| `Props/MachineEdges.v` | 3 | 0 | 3 | C119_edges, C119_segments, C119_samples |
| `Props/MachineFlat.v` | 2 | 0 | 2 | C118_coplanar, C118_outline |
| `Props/MachineInter.v` | 4 | 0 | 4 | C111_same, C111_sound, C111_all_kept, C111_volume_refuted |
| `Props/MachineOutline.v` | 2 | 0 | 2 | C117_outline, C117_segments |
| `Props/MachineVec.v` | 16 | 0 | 16 | all |
| `Props/Names.v` | 4 | 0 | 4 | C122_surface, C122_boundary |
| `Props/Numeric.v` | 20 | 1 | 19 |  |
| `Props/Numeric2.v` | 24 | 4 | 20 |  |
| `Props/Overlap.v` | 4 | 0 | 4 | C69_complete, C69_simple_refuted |
| `Props/PatchEdges.v` | 2 | 0 | 2 | C123_dode_midpoints, C123_dode_edges |
| `Props/Pod.v` | 11 | 4 | 7 |  |
| `Props/PodText.v` | 5 | 1 | 4 | C109_write_podatm, C109_obj2podatm, C109_dode_obj2podatm, C109_position_refuted |
| `Props/Projection.v` | 13 | 0 | 13 |  |
| `Props/Rounding.v` | 6 | 0 | 6 | C88_coordinate, C88_dode_coordinate, C89_numeric_value, C89_dode_numeric_value, C89_zero_refuted |
| `Props/Simplify.v` | 5 | 1 | 4 | C43_volume_refuted |
| `Props/SmallPatch.v` | 3 | 0 | 3 | C121_boundary, C121_outline |
| `Props/SmallSolid.v` | 4 | 0 | 4 | C120_surface, C120_check, C120_edges |
| `Props/Solid.v` | 2 | 0 | 2 | C90_surface, C90_binary64_refuted |
| `Props/SolidEdges.v` | 2 | 0 | 2 | C123_midpoints, C123_edges |
| `Props/SolidFloat.v` | 4 | 0 | 4 | C115_surface, C115_triangles, C115_edges, C115_border |
| `Props/Sorting.v` | 4 | 1 | 3 | C98_binary64, C98_large_refuted |
| `Props/Subtract.v` | 10 | 1 | 9 | C92_difference_refuted |
| `Props/Surface.v` | 28 | 10 | 18 | C24_binary64_refuted, C25_binary64_refuted, C80_binary64_refuted, C28_not_collinear_refuted |
| `Props/Symmetry.v` | 14 | 1 | 13 |  |
| `Props/Symop0.v` | 8 | 8 | 0 |  |
| `Props/Vector.v` | 17 | 1 | 16 |  |
| `Props/VestaText.v` | 7 | 2 | 5 | C110_edges, C110_dode_edges, C110_dode_items, C110_colour_refuted, C110_dode_sides_refuted |
| `Props/Volume.v` | 25 | 2 | 23 |  |
| `Props/Xyz.v` | 26 | 12 | 14 | C38_float_field, C38_round_trip_double, C38_name_refuted, C39_volumes_refuted, C40_six_edges_refuted, C54_double |
