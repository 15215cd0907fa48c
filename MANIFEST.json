{
 "claims": [
  {
   "property": "C01",
   "status": "proved",
   "theorems": [
    "C01_add_exact",
    "C01_sub_exact",
    "C01_mul_exact"
   ],
   "note": "Over unbounded integers; machine widths are C04."
  },
  {
   "property": "C02",
   "status": "proved",
   "theorems": [
    "C02_div_exact",
    "C02_div_none",
    "C02_norm_nonzero"
   ],
   "note": "Division returns None exactly when the divisor denotes zero."
  },
  {
   "property": "C03",
   "status": "proved",
   "theorems": [
    "C03_canonical",
    "C03_canonical_vectors",
    "C03_canonical_unique",
    "C03_noncanonical_differs"
   ],
   "note": ""
  },
  {
   "property": "C04",
   "status": "proved",
   "theorems": [
    "C04_ico_add_exact",
    "C04_ico_sub_exact",
    "C04_ico_mul_exact",
    "C04_ico_div_exact",
    "C04_dode_add_exact",
    "C04_dode_sub_exact",
    "C04_dode_mul_exact",
    "C04_dode_div_exact",
    "C04_overflow_wrong",
    "C04_rounding_wrong"
   ],
   "note": "int64 wrap-around and IEEE-754 binary64 (Flocq) modelled bit-exactly; exactness proved for all operands within 2^26 (add, sub), 2^25 (mul), 2^17 (div) for ico2, 2^26/2^24/2^25/2^16 for dode2; failure beyond the bound by witness (overflow) and for every odd integer between 2^53 and 2^63 (rounding)."
  },
  {
   "property": "C05",
   "status": "proved",
   "theorems": [
    "C05_add_raises",
    "C05_mul_raises",
    "C05_only_ValueError",
    "C05_zero_den_propagates",
    "C05_div_never_raises"
   ],
   "note": "add/mul raise ValueError exactly on a zero denominator after reduction; div never raises."
  },
  {
   "property": "C06",
   "status": "proved",
   "theorems": [
    "C06_add_vectors",
    "C06_add_vectors_short",
    "C06_sub_vectors",
    "C06_mul_vector",
    "C06_ndim_guards",
    "C06_mul_vectors",
    "C06_inner_product",
    "C06_inner_product_none",
    "C06_outer_product",
    "C06_cross_geometric",
    "C06_dot_product_matrix_vector",
    "C06_dot_product_matrix_matrix",
    "C06_dot_product_1_vector"
   ],
   "note": ""
  },
  {
   "property": "C07",
   "status": "proved",
   "theorems": [
    "C07_dot_product_1_3d_value",
    "C07_dot_product_1_3d_raises",
    "C07_dot_product_1_3d_refuted",
    "C07_mul_vectors_4d"
   ],
   "note": "The code violates the documented contract: exact characterisation of what it returns, plus a refutation of the matrix-product contract."
  },
  {
   "property": "C08",
   "status": "proved",
   "theorems": [
    "C08_projection_exact",
    "C08_projection3_half",
    "C08_projection_linear",
    "C08_norm_split",
    "C08_rows_orthogonal",
    "C08_injective"
   ],
   "note": ""
  },
  {
   "property": "C09",
   "status": "proved",
   "theorems": [
    "C09_separates",
    "C09_general_refuted"
   ],
   "note": "The general (non-rational) case is refuted by a witness, as the property states."
  },
  {
   "property": "C10",
   "status": "proved",
   "theorems": [
    "C10_parts",
    "C10_idempotent",
    "C10_linear",
    "C10_selfadjoint",
    "C10_fixed_points"
   ],
   "note": ""
  },
  {
   "property": "C11",
   "status": "proved",
   "theorems": [
    "C11_group",
    "C11_product_is_composition"
   ],
   "note": ""
  },
  {
   "property": "C12",
   "status": "proved",
   "theorems": [
    "C12_isometry",
    "C12_preserves_products"
   ],
   "note": ""
  },
  {
   "property": "C13",
   "status": "proved",
   "theorems": [
    "C13_exact",
    "C13_fixes_centre",
    "C13_compose",
    "C13_inverse",
    "C13_symop_obj"
   ],
   "note": ""
  },
  {
   "property": "C14",
   "status": "proved",
   "theorems": [
    "C14_blocks",
    "C14_first_block",
    "C14_closed",
    "C14_single",
    "C14_other_ndim"
   ],
   "note": ""
  },
  {
   "property": "C15",
   "status": "proved",
   "theorems": [
    "C15_exact",
    "C15_det3",
    "C15_nonneg_zero",
    "C15_vertex_order",
    "C15_translation",
    "C15_symmetry"
   ],
   "note": ""
  },
  {
   "property": "C16",
   "status": "proved",
   "theorems": [
    "C16_sum",
    "C16_pvol",
    "C16_nested",
    "C16_append",
    "C16_order",
    "C16_vertex_order",
    "C16_symmetric",
    "C16_shift",
    "C16_symop"
   ],
   "note": ""
  },
  {
   "property": "C17",
   "status": "proved",
   "theorems": [
    "C17_exact",
    "C17_compose",
    "C17_undo",
    "C17_other_ndim"
   ],
   "note": ""
  },
  {
   "property": "C18",
   "status": "proved",
   "theorems": [
    "C18_mean",
    "C18_order",
    "C18_translation",
    "C18_symmetry",
    "C18_empty",
    "C18_object"
   ],
   "note": ""
  },
  {
   "property": "C19",
   "status": "proved",
   "theorems": [
    "C19_remove_doubling",
    "C19_remove_doubling_4d",
    "C19_perp_representatives",
    "C19_order_irrelevant",
    "C19_idempotent",
    "C19_other_shapes"
   ],
   "note": "Stronger than stated: the result depends only on the set of input vectors."
  },
  {
   "property": "C20",
   "status": "proved",
   "theorems": [
    "C20_remove_vectors",
    "C20_remove_vector",
    "C20_all_removed",
    "C20_contract_refuted"
   ],
   "note": "Exact characterisation; the contract \"no vector of the second argument is in the result\" is refuted (the original list is returned when nothing would remain)."
  },
  {
   "property": "C21",
   "status": "proved",
   "theorems": [
    "C21_equivalent_tetrahedra",
    "C21_equivalent_triangles",
    "C21_equivalent_edges",
    "C21_equivalent_vertices",
    "C21_general",
    "C21_degenerate_not_reflexive"
   ],
   "note": "Non-degenerate simplices: equality of projected vertex sets. General arguments: exact count characterisation; a simplex with a repeated vertex is never equivalent to itself."
  },
  {
   "property": "C22",
   "status": "proved",
   "theorems": [
    "C22_equivalent_sets",
    "C22_equivalent_is_inclusion",
    "C22_sets_refuted",
    "C22_other_shapes"
   ],
   "note": "Exact characterisation (inclusion of the second set in the first) and a refutation of the symmetric reading."
  },
  {
   "property": "C23",
   "status": "proved",
   "theorems": [
    "C23_faces",
    "C23_tetrahedron_edges",
    "C23_triangle_edges",
    "C23_all_edges",
    "C23_all_edges_other"
   ],
   "note": ""
  },
  {
   "property": "C24",
   "status": "proved",
   "theorems": [
    "C24_single",
    "C24_surface",
    "C24_surface_any",
    "C24_boundary",
    "C24_empty",
    "C24_binary64_refuted"
   ],
   "note": "Exact reals, when np.allclose tells different centres apart (explicit hypothesis, shown to hold on an example); C24_surface_any states it for any arithmetic with the conditions on rounding made explicit. C24_binary64_refuted: in IEEE binary64 a shared face can be returned twice, because rounding in the last digit breaks the adjacency of equal centres in the sorted list."
  },
  {
   "property": "C25",
   "status": "proved",
   "theorems": [
    "C25_unique_edges",
    "C25_edge_lost_refuted",
    "C25_binary64_refuted"
   ],
   "note": "Exact reals. The reading 'no edge is lost' is refuted (C25_edge_lost_refuted); in binary64 an edge can also be returned twice (C25_binary64_refuted)."
  },
  {
   "property": "C26",
   "status": "proved",
   "theorems": [
    "C26_few",
    "C26_true_near",
    "C26_false_right",
    "C26_undecided",
    "C26_coplanar_missed_refuted",
    "C26_true_not_exact_refuted",
    "C26_tau"
   ],
   "note": "For every sequence of valid random draws, in exact real arithmetic (binary64 rounding excluded). True means within 1e-4 of a plane; False means not coplanar; None is characterised exactly; two refutations show None on coplanar points and True on slightly non-coplanar ones."
  },
  {
   "property": "C27",
   "status": "proved",
   "theorems": [
    "C27_partition",
    "C27_total",
    "C27_empty"
   ],
   "note": "For any outcome of the coplanarity tests, including different answers for the same pair."
  },
  {
   "property": "C28",
   "status": "proved",
   "theorems": [
    "C28_terminates",
    "C28_result",
    "C28_total",
    "C28_two_segments",
    "C28_on_segment",
    "C28_collinear_merged",
    "C28_not_collinear_refuted",
    "C28_endpoints"
   ],
   "note": "Termination and result for any merge function; the segment merge in any arithmetic, and over exact reals with its tolerance; the exact-collinearity reading is refuted in binary64."
  },
  {
   "property": "C29",
   "status": "proved",
   "theorems": [
    "C29_inside_iff",
    "C29_closed_tetrahedron",
    "C29_far_rejected",
    "C29_flat",
    "C29_order",
    "C29_tau"
   ],
   "note": "Exact characterisation in exact real arithmetic (binary64 rounding excluded)."
  },
  {
   "property": "C30",
   "status": "proved",
   "theorems": [
    "C30_inverted",
    "C30_contract_refuted",
    "C30_wrapper_raises"
   ],
   "note": "Exact real arithmetic; the documented contract is refuted for every point of every non-flat tetrahedron."
  },
  {
   "property": "C31",
   "status": "proved",
   "theorems": [
    "C31_iff",
    "C31_never_missed",
    "C31_parallel",
    "C31_tau"
   ],
   "note": "Exact characterisation in exact real arithmetic (binary64 rounding excluded)."
  },
  {
   "property": "C32",
   "status": "proved",
   "theorems": [
    "C32_point",
    "C32_parallel",
    "C32_exact",
    "C32_on_segment"
   ],
   "note": "intersection_segment_surface for any floating-point arithmetic N in the test (the point itself is exact): the point is A+t(B-A) with the unique t at which the perpendicular projection meets the triangle's plane. C32_parallel: if rounding makes the test positive on an exactly parallel pair the code raises TypeError. C32_exact: over exact reals never raises, and the tolerances of the test are the ones in the statement."
  },
  {
   "property": "C33",
   "status": "proved",
   "theorems": [
    "C33_classes",
    "C33_crossing_not_0"
   ],
   "note": "C33_classes holds for any arithmetic of the point/segment tests (binary64 included), and shows the classifier is total; C33_crossing_not_0 is over exact reals, for an edge and a face whose determinant is at least 1e-6 (the test's own threshold for parallel)."
  },
  {
   "property": "C34",
   "status": "proved",
   "theorems": [
    "C34_ball",
    "C34_radius",
    "C34_never_discards"
   ],
   "note": "Over exact reals: the radius is the largest vertex distance, the ball test is conservative."
  },
  {
   "property": "C35",
   "status": "proved",
   "theorems": [
    "C35_result",
    "C35_tets",
    "C35_never_raises"
   ],
   "note": "For any arithmetic, any Delaunay triangulation and any random samples. C35_never_raises is over exact reals under an explicit contract on the triangulation and a decided coplanarity check."
  },
  {
   "property": "C36",
   "status": "proved",
   "theorems": [
    "C36_members",
    "C36_complete",
    "C36_none",
    "C36_simple",
    "C36_intersection",
    "C36_kinds",
    "C36_contained"
   ],
   "note": "C36_members/complete/none/simple for any distance test, classifier and pairwise intersection; C36_intersection/kinds instantiate them with the functions of the library; C36_contained is end to end over exact reals."
  },
  {
   "property": "C37",
   "status": "proved",
   "theorems": [
    "C37_pieces",
    "C37_raises"
   ],
   "note": "tetrahedralization_points for any Delaunay oracle."
  },
  {
   "property": "C38",
   "status": "proved",
   "theorems": [
    "C38_round_trip",
    "C38_float_field",
    "C38_round_trip_double",
    "C38_triangles_edges",
    "C38_no_atoms",
    "C38_name_refuted"
   ],
   "note": "For any float formatter that prints one word per number, and unconditionally for the exact '%8.6f' of IEEE doubles (Model/Text.v). Names must not contain line breaks: the refuted companion shows the reader failing otherwise. Directory creation and the console messages are not modelled."
  },
  {
   "property": "C39",
   "status": "proved",
   "theorems": [
    "C39_lines",
    "C39_volumes_refuted"
   ],
   "note": "Every line of the file is characterised; the expected per-tetrahedron volume is refuted by two tetrahedra of different volume."
  },
  {
   "property": "C40",
   "status": "proved",
   "theorems": [
    "C40_write_none",
    "C40_unknown_format",
    "C40_xyz_codes",
    "C40_vertex",
    "C40_silent",
    "C40_vesta_select",
    "C40_vesta_simple",
    "C40_vesta_reach",
    "C40_six_edges_refuted"
   ],
   "note": "All strings and shapes; the expectation of six bonds per tetrahedron is refuted."
  },
  {
   "property": "C41",
   "status": "proved",
   "theorems": [
    "C41_blocks",
    "C41_count",
    "C41_array_refuted",
    "C41_bad_rows"
   ],
   "note": "All vertex lists and rows of valid numbers; the documented array argument is refuted (always ValueError)."
  },
  {
   "property": "C42",
   "status": "proved",
   "theorems": [
    "C42_outcome",
    "C42_table",
    "C42_nth_refuted",
    "C42_lifts_refuted",
    "C42_dode_outcome",
    "C42_dode_table",
    "C42_empty"
   ],
   "note": "Both packages. The outcome is for any numeric type, the table over exact reals. Refuted: nth= counts the simplices; the indices resolve without the hypothesis on projections."
  },
  {
   "property": "C43",
   "status": "proved",
   "theorems": [
    "C43_dode_area_refuted",
    "C43_decision",
    "C43_always_hull",
    "C43_empty",
    "C43_volume_refuted",
    "C43_dode_decision"
   ],
   "note": "Decision for any hull and intersection; refutation of volume preservation with the actual hull and intersection executed in binary64 (Flocq), for a correct triangulation oracle."
  },
  {
   "property": "C44",
   "status": "proved",
   "theorems": [
    "C44_det_matrix",
    "C44_det_matrix_repaired",
    "C44_middle_position",
    "C44_middle_position_repaired",
    "C44_symmetry",
    "C44_two_segments",
    "C44_merge_two_tetrahedra",
    "C44_simple_hand_step1",
    "C44_dode_step2",
    "C44_dode_border_edges",
    "C44_ico_site_symmetry",
    "C44_dode_inside_outside"
   ],
   "note": "Undefined names are arguments that are None in the code as it is; for det_matrix and middle_position the repaired functions are proved exact."
  },
  {
   "property": "C45",
   "status": "proved",
   "theorems": [
    "C45_add_exact",
    "C45_sub_exact",
    "C45_mul_exact",
    "C45_div_exact",
    "C45_div_none",
    "C45_norm_nonzero"
   ],
   "note": ""
  },
  {
   "property": "C46",
   "status": "proved",
   "theorems": [
    "C46_canonical",
    "C46_canonical_vectors",
    "C46_canonical_unique"
   ],
   "note": ""
  },
  {
   "property": "C47",
   "status": "proved",
   "theorems": [
    "C47_exact",
    "C47_linear",
    "C47_injective",
    "C47_separates",
    "C47_projection_perp"
   ],
   "note": "Exact projection constants, linearity, injectivity and separation of rational 6-d vectors. projection_perp returns None for every input (bare return); that is stated as a theorem."
  },
  {
   "property": "C48",
   "status": "proved",
   "theorems": [
    "C48_group",
    "C48_isometry",
    "C48_preserves_products"
   ],
   "note": "All 24 operations by computation lifted through forallb_forall; group, isometry of both planes and preserved scalar products."
  },
  {
   "property": "C49",
   "status": "proved",
   "theorems": [
    "C49_compose",
    "C49_objects",
    "C49_undo",
    "C49_factor",
    "C49_vec",
    "C49_area",
    "C49_pure_scaling_refuted"
   ],
   "note": "For all integers m, n. The factor is a rotation times a unit; the reading as pure scaling is refuted."
  },
  {
   "property": "C50",
   "status": "proved",
   "theorems": [
    "C50_exact",
    "C50_nonneg_zero",
    "C50_vertex_order",
    "C50_translation",
    "C50_symmetry",
    "C50_symmetry_triangle",
    "C50_sum",
    "C50_nested",
    "C50_parea",
    "C50_append",
    "C50_order",
    "C50_symmetric"
   ],
   "note": "Exact area of the perpendicular-plane projection of triangles, for objects of any size."
  },
  {
   "property": "C51",
   "status": "proved",
   "theorems": [
    "C51_transversal",
    "C51_disjoint_cover",
    "C51_remove_overlaps",
    "C51_find_overlaps",
    "C51_find_overlaps_general",
    "C51_combined"
   ],
   "note": "Every subgroup of the 24 operations, not just site-symmetry groups; find_overlaps is also characterised on lists with repetitions (True iff the concatenation repeats an element)."
  },
  {
   "property": "C52",
   "status": "proved",
   "theorems": [
    "C52_exact",
    "C52_identity",
    "C52_unit_cell",
    "C52_coset",
    "C52_equivalent_positions",
    "C52_lattice_point_refuted",
    "C52_not_translation_invariant_refuted",
    "C52_tolerance_refuted"
   ],
   "note": "Exact characterisation over the reals for all sites; unit-cell theorem for denominators up to 10^6; end-to-end coset and equivalent-position theorems. The violations (lattice translates, results that are not subgroups, wrong coset count, tolerance) are proved as *_refuted."
  },
  {
   "property": "C53",
   "status": "proved",
   "theorems": [
    "C53_never_connected",
    "C53_shared_edge_refuted"
   ],
   "note": "For every pair; the shared-edge pair is the refutation of the documented contract."
  },
  {
   "property": "C54",
   "status": "proved",
   "theorems": [
    "C54_select_ignored",
    "C54_lines",
    "C54_read",
    "C54_double",
    "C54_codes"
   ],
   "note": "All selections, all objects with at least two vertices per item; exact outcome of reading the file back."
  },
  {
   "property": "C55",
   "status": "proved",
   "theorems": [
    "C55_connectivity",
    "C55_three_common",
    "C55_common_triangle",
    "C55_no_common_triangle"
   ],
   "note": ""
  },
  {
   "property": "C56",
   "status": "proved",
   "theorems": [
    "C56_none",
    "C56_concat",
    "C56_not_4d"
   ],
   "note": "subtraction for any surface generator and any per-tetrahedron subtraction (tetrahedron_not_obj is a parameter)."
  },
  {
   "property": "C57",
   "status": "proved",
   "theorems": [
    "C57_border",
    "C57_border_complete"
   ],
   "note": "Soundness in any arithmetic; completeness over exact reals for edges not crossed at their midpoint (the crossed case is C25's lost edge)."
  },
  {
   "property": "C58",
   "status": "proved",
   "theorems": [
    "C58_vertices"
   ],
   "note": "Any arithmetic, any triangulation, any random samples. That the result is the convex hull depends on the triangulation and is not claimed."
  },
  {
   "property": "C59",
   "status": "proved",
   "theorems": [
    "C59_add_vectors",
    "C59_add_vectors_short",
    "C59_sub_vectors",
    "C59_mul_vector",
    "C59_ndim_guards",
    "C59_mul_vectors",
    "C59_inner_product",
    "C59_inner_product_none",
    "C59_outer_product",
    "C59_cross_geometric",
    "C59_dot_product_matrix_vector",
    "C59_dot_product_matrix_matrix",
    "C59_dot_product_1_vector"
   ],
   "note": "Same generic proofs as C06, instantiated at the dodecagonal scalar arithmetic."
  },
  {
   "property": "C60",
   "status": "proved",
   "theorems": [
    "C60_exact",
    "C60_fixes_centre",
    "C60_compose",
    "C60_inverse",
    "C60_symop_obj"
   ],
   "note": "All 24 operations, all centres and sizes."
  },
  {
   "property": "C61",
   "status": "proved",
   "theorems": [
    "C61_blocks",
    "C61_first_block",
    "C61_closed",
    "C61_single",
    "C61_other_ndim"
   ],
   "note": "Any number of triangles."
  },
  {
   "property": "C62",
   "status": "proved",
   "theorems": [
    "C62_exact",
    "C62_compose",
    "C62_undo",
    "C62_other_ndim"
   ],
   "note": "Any object size; bitwise equality for canonical objects."
  },
  {
   "property": "C63",
   "status": "proved",
   "theorems": [
    "C63_mean",
    "C63_order",
    "C63_translation",
    "C63_symmetry",
    "C63_empty",
    "C63_object"
   ],
   "note": "Any number of points."
  },
  {
   "property": "C64",
   "status": "proved",
   "theorems": [
    "C64_remove_doubling_4d",
    "C64_perp_representatives",
    "C64_order_irrelevant",
    "C64_idempotent",
    "C64_other_shapes"
   ],
   "note": "All lists."
  },
  {
   "property": "C65",
   "status": "proved",
   "theorems": [
    "C65_equivalent_triangles",
    "C65_equivalent_edges",
    "C65_equivalent_vertices",
    "C65_general",
    "C65_degenerate_not_reflexive",
    "C65_equivalent_sets",
    "C65_equivalent_is_inclusion",
    "C65_sets_refuted",
    "C65_other_shapes"
   ],
   "note": "Equality of projected vertex sets for non-degenerate arguments; exact count characterisation in general; the generic test is inclusion, with a refuting pair."
  },
  {
   "property": "C66",
   "status": "proved",
   "theorems": [
    "C66_triangle_edges",
    "C66_all_edges",
    "C66_all_edges_other"
   ],
   "note": "Any number of triangles."
  },
  {
   "property": "C67",
   "status": "proved",
   "theorems": [
    "C67_edges",
    "C67_dode_edges",
    "C67_dode_items",
    "C67_dode_selections"
   ],
   "note": "Over exact reals for the coordinates and lengths; only the atom and bond data of the file are modelled, not its fixed text."
  },
  {
   "property": "C68",
   "status": "proved",
   "theorems": [
    "C68_groups",
    "C68_flat_group",
    "C68_zero_is_last"
   ],
   "note": "For any triangulation oracle."
  },
  {
   "property": "C69",
   "status": "proved",
   "theorems": [
    "C69_sound",
    "C69_complete",
    "C69_sound_exact",
    "C69_simple_refuted"
   ],
   "note": "Over exact reals (Rnum): soundness with and without the tolerance, completeness through a proof that the overlap of two tetrahedra is spanned by vertices and transversal edge/face crossings. The defect of kind='simple' is executed in binary64."
  },
  {
   "property": "C70",
   "status": "proved",
   "theorems": [
    "C70_iff",
    "C70_closed_triangle",
    "C70_sharp",
    "C70_total"
   ],
   "note": "Exact reals for the float operations; the never-raises part holds for any arithmetic."
  },
  {
   "property": "C71",
   "status": "proved",
   "theorems": [
    "C71_test",
    "C71_test_space",
    "C71_point",
    "C71_parallel",
    "C71_exact"
   ],
   "note": "The test is characterised over the reals in the plane and in space, the point exactly in the ring arithmetic for any numeric type."
  },
  {
   "property": "C72",
   "status": "proved",
   "theorems": [
    "C72_classes",
    "C72_ball",
    "C72_radius",
    "C72_never_discards"
   ],
   "note": "The classes are characterised for any numeric type; the distance test over exact reals."
  },
  {
   "property": "C73",
   "status": "proved",
   "theorems": [
    "C73_pieces",
    "C73_pieces_total",
    "C73_result",
    "C73_unbound",
    "C73_class_3"
   ],
   "note": "For any numeric type and any triangulation oracle."
  },
  {
   "property": "C75",
   "status": "proved",
   "theorems": [
    "C75_subtraction",
    "C75_convex",
    "C75_convex_ndim"
   ],
   "note": "The undefined names are arguments that are None in the code as it is; whatever follows them is arbitrary."
  },
  {
   "property": "C74",
   "status": "proved",
   "theorems": [
    "C74_members",
    "C74_complete",
    "C74_none",
    "C74_simple",
    "C74_intersection",
    "C74_kinds",
    "C74_sound",
    "C74_nothing_lost",
    "C74_never_raises",
    "C74_simple_refuted",
    "C74_degenerate_refuted"
   ],
   "note": "Over exact reals (Rnum) for soundness, completeness and never-raises; members/complete/none/simple for any distance test, classifier and pairwise intersection. A triangulation as assumed is shown to exist. The defects (area test of select='simple', degenerate triangles) are executed in binary64."
  },
  {
   "property": "C76",
   "status": "proved",
   "theorems": [
    "C76_iff",
    "C76_total",
    "C76_closed_triangle",
    "C76_plane",
    "C76_height",
    "C76_small_refuted",
    "C76_off_plane_refuted"
   ],
   "note": "Over exact reals; the exact acceptance condition, and refutations of the reading of 1e-6 as a distance."
  },
  {
   "property": "C77",
   "status": "proved",
   "theorems": [
    "C77_tau",
    "C77_line",
    "C77_closed_segment",
    "C77_degenerate",
    "C77_near",
    "C77_tolerance_refuted"
   ],
   "note": "Over exact reals; both packages reduce to one test on the projected points."
  },
  {
   "property": "C78",
   "status": "proved",
   "theorems": [
    "C78_projection",
    "C78_dprojection",
    "C78_volume",
    "C78_tetrahedron",
    "C78_area",
    "C78_area_inclined_refuted",
    "C78_triangle_area",
    "C78_points"
   ],
   "note": "Over exact reals. The condition on the sixth coordinate is necessary (refuted companion)."
  },
  {
   "property": "C79",
   "status": "proved",
   "theorems": [
    "C79_block",
    "C79_block_single",
    "C79_index",
    "C79_other_ndim",
    "C79_dblock",
    "C79_dblock_single",
    "C79_dindex",
    "C79_dvec"
   ],
   "note": "For whatever symmetric() returns; no hypothesis on the vectors. Python's negative indices are modelled (getz)."
  },
  {
   "property": "C80",
   "status": "proved",
   "theorems": [
    "C80_unique_triangles",
    "C80_single",
    "C80_corners",
    "C80_face_lost_refuted",
    "C80_binary64_refuted"
   ],
   "note": "Over exact reals; losses and the binary64 duplicate are the refuted companions."
  },
  {
   "property": "C81",
   "status": "proved",
   "theorems": [
    "C81_two_segments",
    "C81_inside_obj",
    "C81_inside_obj_tau"
   ],
   "note": "Any numeric type."
  },
  {
   "property": "C82",
   "status": "proved",
   "theorems": [
    "C82_outline",
    "C82_segments",
    "C82_unlucky_refuted"
   ],
   "note": "Exact reals; 'sharp' (no vertex within 3/2000 of a segment between two others without lying on it) excludes the tolerance of the merging test. scipy is not involved. The failure for unlucky random samples is the refuted companion (binary64)."
  },
  {
   "property": "C83",
   "status": "proved",
   "theorems": [
    "C83_level",
    "C83_random_refuted"
   ],
   "note": "Exact reals. That the answer depends on the samples is the refuted companion."
  },
  {
   "property": "C84",
   "status": "proved",
   "theorems": [
    "C84_unique_edges",
    "C84_edge_lost_refuted",
    "C84_border",
    "C84_patch_border"
   ],
   "note": "Exact reals for the 'all of them' directions; the lost edge is the refuted companion."
  },
  {
   "property": "C85",
   "status": "proved",
   "theorems": [
    "C85_attribute",
    "C85_outline"
   ],
   "note": "The missing attribute is a parameter of the model; the second theorem shows what would happen with a function that returns the object itself."
  },
  {
   "property": "C86",
   "status": "proved",
   "theorems": [
    "C86_vertices",
    "C86_hull"
   ],
   "note": "Vertices: any numeric type, any triangulation. Region: exact reals, a triangulation as in C74 (shown to exist)."
  },
  {
   "property": "C87",
   "status": "proved",
   "theorems": [
    "C87_reduces",
    "C87_sound",
    "C87_complete",
    "C87_cut",
    "C87_shape"
   ],
   "note": "Exact reals, by reduction to C69; the conditions of C69_complete are stated for the tetrahedron position, position+5 v."
  },
  {
   "property": "C88",
   "status": "proved",
   "theorems": [
    "C88_format",
    "C88_coordinate",
    "C88_dode_coordinate"
   ],
   "note": "The doubles are Flocq binary64, the text is compared with an independent reader (Spec/DecimalSpec.v)."
  },
  {
   "property": "C89",
   "status": "proved",
   "theorems": [
    "C89_numeric_value",
    "C89_dode_numeric_value",
    "C89_zero_refuted"
   ],
   "note": "Flocq binary64, round to nearest even. The unbounded relative error is the refuted companion."
  },
  {
   "property": "C90",
   "status": "proved",
   "theorems": [
    "C90_surface",
    "C90_binary64_refuted"
   ],
   "note": "Exact reals for the positive part. Proved through a general theorem: the boundary of a face-to-face union of tetrahedra is the union of the faces that belong to one tetrahedron. The failure of the binary64 code is the refuted companion."
  },
  {
   "property": "C91",
   "status": "proved",
   "theorems": [
    "C91_first_inside",
    "C91_second_inside",
    "C91_disjoint",
    "C91_points",
    "C91_raises",
    "C91_region",
    "C91_shape",
    "C91_overlap_refuted"
   ],
   "note": "Exact reals for the positive part; well_placed says that both objects are convex solids and that no edge is almost parallel to a face and no corner or crossing lies in the tolerance shell. Proved through a general theorem on convex solids: their common part is spanned by the corners of each in the other and the transversal edge-face crossings. The promise that overlapping convex objects always have an intersection is false of the code: the refuted companion gives two overlapping tetrahedra for which it raises, in exact arithmetic and in binary64."
  },
  {
   "property": "C92",
   "status": "proved",
   "theorems": [
    "C92_pieces",
    "C92_volume",
    "C92_bound",
    "C92_two_outside",
    "C92_none_outside",
    "C92_second",
    "C92_whole",
    "C92_no_common",
    "C92_disjoint",
    "C92_difference_refuted"
   ],
   "note": "The structural part holds for any arithmetic, triangulation, sampling and sorting; the disjoint case is in exact reals with no vertex or crossing in the tolerance shell. That subtraction returns the set difference is false of the code: the refuted companion is a binary64 run that returns one of the three pieces and loses points, because the running volume is not reset between the combinations tried. Examples show a correct run (a corner cut off) too."
  },
  {
   "property": "C93",
   "status": "proved",
   "theorems": [
    "C93_projection",
    "C93_inside",
    "C93_outside",
    "C93_large_refuted"
   ],
   "note": "Flocq binary64, round to nearest even. For every np.dot and np.linalg.det within the bounds of Spec/LinAlg (C108). The loss of precision far from the origin is the refuted companion."
  },
  {
   "property": "C94",
   "status": "proved",
   "theorems": [
    "C94_parallel",
    "C94_meets",
    "C94_sound"
   ],
   "note": "Flocq binary64. For every np.dot and np.linalg.det within the bounds of Spec/LinAlg (C108)."
  },
  {
   "property": "C95",
   "status": "proved",
   "theorems": [
    "C95_class",
    "C95_sound",
    "C95_sound_exact",
    "C95_all_kept",
    "C95_nothing_lost"
   ],
   "note": "Flocq binary64, for every np.dot and np.linalg.det within the bounds of Spec/LinAlg (C108); the exact-real counterpart is C69. The triangulation (Delaunay) is an argument; one as required is shown to exist (E_C95_complete). tame_points bounds the size of the crossing points that are found; for the exactness of these points on the machine see C103."
  },
  {
   "property": "C96",
   "status": "proved",
   "theorems": [
    "C96_edges",
    "C96_segments",
    "C96_flat",
    "C96_samples",
    "C96_unlucky_refuted"
   ],
   "note": "Exact reals. C96_samples reduces the condition on the coplanarity check to one on the sampled triples. Proved through a general theorem: the border of a union of edge-to-edge triangles in a plane is the union of the edges that belong to one triangle. The failure for unlucky samples is the refuted companion (binary64)."
  },
  {
   "property": "C97",
   "status": "proved",
   "theorems": [
    "C97_hull",
    "C97_simplify"
   ],
   "note": "Exact reals. A triangulation as required is shown to exist (Proofs/Caratheodory3.v). For objects that are not convex, simplification may return the hull (see C43)."
  },
  {
   "property": "C98",
   "status": "proved",
   "theorems": [
    "C98_permutes",
    "C98_sorted",
    "C98_binary64",
    "C98_large_refuted"
   ],
   "note": "argsort is an argument: a permutation of the positions that orders comparable entries. The refuted companion shows the wrong order for large coordinates in binary64. sort_obj raises NameError in its first statement in both packages and is not modelled."
  },
  {
   "property": "C99",
   "status": "proved",
   "theorems": [
    "C99_projection",
    "C99_inside",
    "C99_outside",
    "C99_parallel",
    "C99_crosses",
    "C99_sound",
    "C99_touch_refuted"
   ],
   "note": "Flocq binary64, for every np.dot and np.linalg.det within the bounds of Spec/LinAlg (C108). Crossings within 1e-6 of an end point are undecided; that they can be missed is the refuted companion."
  },
  {
   "property": "C100",
   "status": "proved",
   "theorems": [
    "C100_sound",
    "C100_sound_exact",
    "C100_nothing_lost",
    "C100_touch_refuted",
    "C100_all_kept"
   ],
   "note": "Flocq binary64, for every np.dot and np.linalg.det within the bounds of Spec/LinAlg (C108); the exact-real counterpart is C74. C100_all_kept replaces the distance test in the hypotheses of C100_nothing_lost by C107. Edges must meet, if at all, away from their ends or in vertices and some pair properly (or one triangle contains the other); the refuted companion shows why. The triangulation is an argument; one as required is shown to exist."
  },
  {
   "property": "C101",
   "status": "proved",
   "theorems": [
    "C101_projection",
    "C101_volume",
    "C101_object",
    "C101_shift",
    "C101_symmetric",
    "C101_centroid",
    "C101_sign_refuted",
    "C101_overflow_refuted"
   ],
   "note": "int64 with wrap-around, Flocq binary64 for the quotients and the sign test. The symmetry matrices are float64 arrays in the source, and so is the product with them in Model/MachineSym. Spec/Grid.v states the bounds: on_grid q B for a coordinate, clear_vol for a tetrahedron that is exactly flat or not nearly flat (automatic for small coordinates). The refuted companions show why both are needed."
  },
  {
   "property": "C102",
   "status": "proved",
   "theorems": [
    "C102_projection",
    "C102_area",
    "C102_object",
    "C102_shift",
    "C102_symmetric",
    "C102_centroid",
    "C102_sign_refuted",
    "C102_overflow_refuted"
   ],
   "note": "As C101."
  },
  {
   "property": "C103",
   "status": "proved",
   "theorems": [
    "C103_same",
    "C103_point",
    "C103_corners",
    "C103_integer_refuted",
    "C103_large_refuted"
   ],
   "note": "int64 with wrap-around and truncated float64 quotients; the test whether segment and triangle meet is the float64 one in both. Equality of results also covers the case in which the code raises. The later steps (removal of doubles, triangulation, volumes) have no such bound: see C101 for the volumes. The refuted companions show wrong points beyond the bounds. For any float arithmetic in the tests."
  },
  {
   "property": "C104",
   "status": "proved",
   "theorems": [
    "C104_same",
    "C104_point",
    "C104_corners",
    "C104_small_refuted",
    "C104_integer_refuted"
   ],
   "note": "As C103. For any float arithmetic in the tests."
  },
  {
   "property": "C105",
   "status": "proved",
   "theorems": [
    "C105_true_near",
    "C105_false_right",
    "C105_defined",
    "C105_coplanar_missed_refuted"
   ],
   "note": "Flocq binary64, for every np.dot and np.linalg.det within the bounds of Spec/LinAlg (C108); the exact-real counterpart is C26. The random samples are an argument, any list of triples of positions. The refuted companion shows why the size is limited for the answer False."
  },
  {
   "property": "C106",
   "status": "proved",
   "theorems": [
    "C106_radius",
    "C106_never_discards",
    "C106_touching_missed_refuted"
   ],
   "note": "Flocq binary64, for every np.dot and np.linalg.det within the bounds of Spec/LinAlg (C108); the exact-real counterpart is C34. fit_balls bounds the exact differences that the code forms before it rounds. The refuted companions show that touching spheres can be missed; the common part is then a single point."
  },
  {
   "property": "C107",
   "status": "proved",
   "theorems": [
    "C107_radius",
    "C107_never_discards",
    "C107_touching_missed_refuted"
   ],
   "note": "As C106, for triangles; the exact-real counterpart is C72."
  },
  {
   "property": "C108",
   "status": "proved",
   "theorems": [
    "C108_dot",
    "C108_textbook",
    "C108_numpy_det",
    "C108_getrf",
    "C108_numpy",
    "C108_same_inside",
    "C108_order_refuted"
   ],
   "note": "Flocq binary64. np.dot and np.linalg.det are not part of /repo: a plan is any order of the additions of the three products, with or without fused multiply-adds; np.linalg.det is modelled in Model/Lapack from numpy's and LAPACK's documentation (log and exp are parameters assumed accurate to one unit in the last place, the factorisation is modelled in eight variants or any with the stated backward error). C108_same_inside combines the bounds with C93. The refuted companion is the reason why the statement is about bounds and answers and not about equal numbers."
  },
  {
   "property": "C109",
   "status": "proved",
   "theorems": [
    "C109_read",
    "C109_write_podatm",
    "C109_obj2podatm",
    "C109_dode_obj2podatm",
    "C109_position_refuted"
   ],
   "note": "Flocq binary64 and CPython's formatting, as in C88; the reader (Spec/PodText) is ours. Refuted: that the position can be recovered from x= (three decimals)."
  },
  {
   "property": "C110",
   "status": "proved",
   "theorems": [
    "C110_edges",
    "C110_dode_edges",
    "C110_dode_items",
    "C110_colour_error",
    "C110_colour_names",
    "C110_colour_refuted",
    "C110_dode_sides_refuted"
   ],
   "note": "Flocq binary64, any np.dot within the bounds of Spec/LinAlg, and CPython's formatting, as in C88; the reader and the rule by which VESTA joins atoms (Spec/VestaText) are ours. Refuted: that dode2's select='normal' draws every side of an item, and that every colour name can be written."
  },
  {
   "property": "C111",
   "status": "proved",
   "theorems": [
    "C111_same",
    "C111_sound",
    "C111_all_kept",
    "C111_volume_refuted"
   ],
   "note": "int64 with wrap-around, truncated float64 quotients; kind='simple' is not covered. The condition on the corners is about the points the code itself collects (neat_pair); where the machine and exact arithmetic agree on them is C103. C111_sound and C111_all_kept rest on C95 for what the result means. The refuted companion meets the bounds of C103 and violates only the condition on the corners."
  },
  {
   "property": "C112",
   "status": "proved",
   "theorems": [
    "C112_same",
    "C112_sound",
    "C112_sound_exact",
    "C112_all_kept"
   ],
   "note": "As C111; kind='simple' is not covered. The condition on the corners is sufficient; we know no case within the bounds of C104 in which it fails and the result is wrong."
  },
  {
   "property": "C113",
   "status": "proved",
   "theorems": [
    "C113_representatives",
    "C113_equivalent",
    "C113_vertices",
    "C113_connectivity",
    "C113_surface",
    "C113_edges",
    "C113_far_points_refuted"
   ],
   "note": "Sorting of int64 rows by np.unique is that of C19. The comparison of centres in floating point is C24, C25 and C90."
  },
  {
   "property": "C114",
   "status": "proved",
   "theorems": [
    "C114_representatives",
    "C114_equivalent",
    "C114_vertices",
    "C114_edges",
    "C114_far_points_refuted"
   ],
   "note": "As C113."
  },
  {
   "property": "C115",
   "status": "proved",
   "theorems": [
    "C115_surface",
    "C115_triangles",
    "C115_edges",
    "C115_border"
   ],
   "note": "Centres are computed in binary64 from exact int64 centroids, with an error far below the tolerance of np.allclose; equal faces have bitwise equal centres when every vertex has one name. The conditions are needed: C24, C25, C80, C90 have counterexamples without them."
  },
  {
   "property": "C116",
   "status": "proved",
   "theorems": [
    "C116_edges",
    "C116_border",
    "C116_boundary"
   ],
   "note": "As C115. "
  },
  {
   "property": "C117",
   "status": "proved",
   "theorems": [
    "C117_outline",
    "C117_segments"
   ],
   "note": "Proved for any LAPACK/BLAS within its documented error. The random samples are an argument; that the coplanarity test succeeds is assumed, as in C82 (C82_unlucky_refuted shows that it can fail)."
  },
  {
   "property": "C118",
   "status": "proved",
   "theorems": [
    "C118_coplanar",
    "C118_outline"
   ],
   "note": "The sixth coordinate of a point is its height, computed from one number, so heights are the same double and the normal vector is exactly vertical. Objects whose vertices write the same height differently are not covered."
  },
  {
   "property": "C119",
   "status": "proved",
   "theorems": [
    "C119_edges",
    "C119_segments",
    "C119_samples"
   ],
   "note": "Proved for any LAPACK/BLAS within its documented error. The random samples are an argument; C119_samples reduces the condition on the coplanarity check to the samples (C96_unlucky_refuted shows that samples can be unlucky)."
  },
  {
   "property": "C120",
   "status": "proved",
   "theorems": [
    "C120_centres",
    "C120_surface",
    "C120_check",
    "C120_edges"
   ],
   "note": "A number a + b tau and its conjugate multiply to an integer, so a small conjugate keeps it away from 0. The bounds on numerators and denominators are sufficient, not sharp."
  },
  {
   "property": "C121",
   "status": "proved",
   "theorems": [
    "C121_midpoints",
    "C121_boundary",
    "C121_outline"
   ],
   "note": "As C120, with a + b sqrt 3 and its conjugate. The bounds on numerators and denominators are sufficient, not sharp."
  },
  {
   "property": "C122",
   "status": "proved",
   "theorems": [
    "C122_names",
    "C122_dode_names",
    "C122_surface",
    "C122_boundary"
   ],
   "note": "C120 and C121 with the remaining condition on names replaced by lowest terms and rational coordinates; vertices with tau or sqrt 3 need the same part in parallel space instead."
  },
  {
   "property": "C123",
   "status": "proved",
   "theorems": [
    "C123_dode_midpoints",
    "C123_dode_edges",
    "C123_midpoints",
    "C123_edges"
   ],
   "note": "C115 with its condition on midpoints proved from the bounds on the coordinates and from the tetrahedra meeting face to face; in dode2 C116 in the same way, with triangles meeting edge to edge."
  }
 ]
}