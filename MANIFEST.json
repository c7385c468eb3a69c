{
 "claims": [
  {
   "property": "C01",
   "status": "proved",
   "theorems": [
    "C01_counts_array",
    "C01_counts_dict",
    "C01_listings_are_cells"
   ],
   "note": ""
  },
  {
   "property": "C02",
   "status": "proved",
   "theorems": [
    "C02_raw",
    "C02_csr",
    "C02_jagged",
    "C02_dicts",
    "C02_incidence_unique",
    "C02_regular_default",
    "C02_irregular_rejected",
    "C02_cellIDs_need_dicts"
   ],
   "note": ""
  },
  {
   "property": "C03",
   "status": "partial",
   "theorems": [
    "C03_adjacency",
    "C03_symmetric",
    "C03_reflexive",
    "C03_needs_networkx",
    "C03_csr_refuted"
   ],
   "note": "Proved for numpy and jagged topologies. A csr_matrix topology is never accepted and, without networkx, every format except 'jagged' is refused (C03_csr_refuted, C03_needs_networkx)."
  },
  {
   "property": "C04",
   "status": "proved",
   "theorems": [
    "C04_is_regular",
    "C04_empty",
    "C04_flat"
   ],
   "note": ""
  },
  {
   "property": "C05",
   "status": "proved",
   "theorems": [
    "C05_regularize",
    "C05_order_preserved",
    "C05_flat"
   ],
   "note": ""
  },
  {
   "property": "C06",
   "status": "proved",
   "theorems": [
    "C06_rewire",
    "C06_rewire_missing",
    "C06_undo",
    "C06_undo_back",
    "C06_invert_total",
    "C06_invert_missing",
    "C06_invert_dict",
    "C06_any_schedule",
    "C06_any_schedule_1d",
    "C06_inverse_array",
    "C06_inverse_array_in_order",
    "C06_inverse_array_repeated_refuted",
    "C06_arrays_to_imap"
   ],
   "note": ""
  },
  {
   "property": "C07",
   "status": "proved",
   "theorems": [
    "C07_detach",
    "C07_detach_data",
    "C07_out_of_range"
   ],
   "note": ""
  },
  {
   "property": "C08",
   "status": "proved",
   "theorems": [
    "C08_detach_global",
    "C08_pointcloud_ids",
    "C08_unknown_id"
   ],
   "note": ""
  },
  {
   "property": "C09",
   "status": "proved",
   "theorems": [
    "C09_unique_entities",
    "C09_same_id"
   ],
   "note": ""
  },
  {
   "property": "C10",
   "status": "partial",
   "theorems": [
    "C10_reconstruction_partial",
    "C10_reconstruction_refuted",
    "C10_reconstruction_sorted"
   ],
   "note": "The docstring's claim is false (C10_reconstruction_refuted); it holds exactly when every entity lists its nodes in increasing order (C10_reconstruction_partial)."
  },
  {
   "property": "C11",
   "status": "partial",
   "theorems": [
    "C11_queries_pure_partial",
    "C11_regular_csr_pure_partial",
    "C11_csr_refuted"
   ],
   "note": "False for csr_matrix topologies that are not regular: the argument is renumbered in place (C11_csr_refuted). Proved for numpy/awkward topologies and regular csr_matrix ones, over every sequence of queries."
  },
  {
   "property": "C12",
   "status": "proved",
   "theorems": [
    "C12_transform_topology",
    "C12_unique",
    "C12_compose",
    "C12_bad_path"
   ],
   "note": ""
  },
  {
   "property": "C13",
   "status": "partial",
   "theorems": [
    "C13_nodal_data",
    "C13_nodal_function",
    "C13_cell_data",
    "C13_cell_data_2d_partial",
    "C13_cell_data_2d_refuted",
    "C13_other_data",
    "C13_sequence"
   ],
   "note": "Cell data with several components is treated as nodal data when the number of components equals the number of nodes per cell (C13_cell_data_2d_refuted); everything else proved."
  },
  {
   "property": "C14",
   "status": "proved",
   "theorems": [
    "C14_T3_to_T6",
    "C14_Q4_to_Q8",
    "C14_TET4_to_TET10",
    "C14_Q4_to_Q9",
    "C14_H8_to_H27",
    "C14_L2_to_L3"
   ],
   "note": ""
  },
  {
   "property": "C15",
   "status": "proved",
   "theorems": [
    "C15_T6",
    "C15_Q9",
    "C15_TET10",
    "C15_H27",
    "C15_L3"
   ],
   "note": ""
  },
  {
   "property": "C16",
   "status": "partial",
   "theorems": [
    "C16_Q4_to_T3",
    "C16_Q4_to_T3_grid",
    "C16_T6_to_T3",
    "C16_T6_to_T3_corners",
    "C16_Q8_to_T3",
    "C16_Q9_to_Q4",
    "C16_Q9_to_Q4_grid",
    "C16_Q9_to_T6_partial",
    "C16_Q9_to_T6_refuted"
   ],
   "note": "Q9_to_T6 splits only cells numbered row by row correctly (C16_Q9_to_T6_partial); with the numbering made by Q4_to_Q9, the one used in the documentation and in the tests, areas are not conserved (C16_Q9_to_T6_refuted). All other 2d splits proved."
  },
  {
   "property": "C17",
   "status": "proved",
   "theorems": [
    "C17_H8_to_TET4",
    "C17_W6_to_TET4",
    "C17_H27_to_H8",
    "C17_W18_to_W6",
    "C17_H27_to_TET10",
    "C17_H27_to_H8_any",
    "C17_W18_to_W6_any",
    "C17_H8_to_TET4_any"
   ],
   "note": ""
  },
  {
   "property": "C18",
   "status": "partial",
   "theorems": [
    "C18_one_cell_partial",
    "C18_neighbours_refuted"
   ],
   "note": "False: the tetrahedra of two cells stacked along the first local direction never match on the common face (C18_neighbours_refuted). Inside one cell they match (C18_one_cell_partial)."
  },
  {
   "property": "C19",
   "status": "partial",
   "theorems": [
    "C19_wedges_refuted",
    "C19_wedges_partial"
   ],
   "note": "False: W6_to_W18 leaves the bounds of an array for every non-empty mesh (C19_wedges_refuted). C19_wedges_partial: with the index of faces_W6 line 184 corrected the function is right."
  },
  {
   "property": "C20",
   "status": "proved",
   "theorems": [
    "C20_T3_to_L2",
    "C20_TET4_to_L2",
    "C20_H8_to_L2"
   ],
   "note": ""
  },
  {
   "property": "C21",
   "status": "proved",
   "theorems": [
    "C21_grid_2d",
    "C21_grid_3d",
    "C21_bins_2d",
    "C21_bins_3d",
    "C21_empty_bins_2d",
    "C21_empty_bins_3d"
   ],
   "note": ""
  },
  {
   "property": "C22",
   "status": "proved",
   "theorems": [
    "C22_grid_2d",
    "C22_grid_3d"
   ],
   "note": ""
  },
  {
   "property": "C23",
   "status": "proved",
   "theorems": [
    "C23_schedule_2d",
    "C23_schedule_3d",
    "C23_schedule_bins_2d",
    "C23_schedule_bins_3d"
   ],
   "note": ""
  },
  {
   "property": "C24",
   "status": "proved",
   "theorems": [
    "C24_Q4",
    "C24_Q4_bins",
    "C24_Q9",
    "C24_Q9_bins",
    "C24_H8",
    "C24_H8_bins",
    "C24_H27",
    "C24_H27_bins",
    "C24_no_shift"
   ],
   "note": ""
  },
  {
   "property": "C25",
   "status": "proved",
   "theorems": [
    "C25_grid_2d",
    "C25_grid_3d"
   ],
   "note": ""
  },
  {
   "property": "C26",
   "status": "partial",
   "theorems": [
    "C26_bins_2d",
    "C26_bins_3d_partial",
    "C26_even_bins_2d",
    "C26_even_bins_3d",
    "C26_integer_bins_3d_refuted"
   ],
   "note": "False for integer bins in three dimensions (C26_integer_bins_3d_refuted): coordinates between the bins are truncated. Proved for floating point bins in two and three dimensions."
  },
  {
   "property": "C27",
   "status": "partial",
   "theorems": [
    "C27_default_eshape_refuted",
    "C27_named_path_refuted",
    "C27_one_dimension_refuted",
    "C27_path_partial",
    "C27_default_eshape_bins_partial"
   ],
   "note": "False: without eshape (and bins) the call fails, a named eshape drops path, 1d grids fail (C27_*_refuted). C27_path_partial, C27_default_eshape_bins_partial: what does work."
  },
  {
   "property": "C28",
   "status": "proved",
   "theorems": [
    "C28_L2",
    "C28_T3",
    "C28_T6",
    "C28_Q4",
    "C28_Q9",
    "C28_TET4",
    "C28_H8",
    "C28_H27"
   ],
   "note": ""
  },
  {
   "property": "C29",
   "status": "proved",
   "theorems": [
    "C29_L2_unity",
    "C29_T3_unity",
    "C29_T6_unity",
    "C29_Q4_unity",
    "C29_Q9_unity",
    "C29_TET4_unity",
    "C29_H8_unity",
    "C29_H27_unity",
    "C29_L2_linear",
    "C29_T3_linear",
    "C29_T6_linear",
    "C29_Q4_linear",
    "C29_Q9_linear",
    "C29_TET4_linear",
    "C29_H8_linear",
    "C29_H27_linear",
    "C29_T6_polynomials",
    "C29_Q4_polynomials",
    "C29_Q9_polynomials",
    "C29_H8_polynomials",
    "C29_H27_polynomials"
   ],
   "note": ""
  },
  {
   "property": "C30",
   "status": "proved",
   "theorems": [
    "C30_L2",
    "C30_T3",
    "C30_T6",
    "C30_Q4",
    "C30_Q9",
    "C30_TET4",
    "C30_H8",
    "C30_H27",
    "C30_L2_cancel",
    "C30_T3_cancel",
    "C30_T6_cancel",
    "C30_Q4_cancel",
    "C30_Q9_cancel",
    "C30_TET4_cancel",
    "C30_H8_cancel",
    "C30_H27_cancel"
   ],
   "note": ""
  },
  {
   "property": "C31",
   "status": "partial",
   "theorems": [
    "C31_L2",
    "C31_T3",
    "C31_T6",
    "C31_Q4",
    "C31_Q9",
    "C31_TET4",
    "C31_H27",
    "C31_H8_partial",
    "C31_H8_refuted"
   ],
   "note": "shape_function_matrix_H8 works for three degrees of freedom per node only (C31_H8_partial, C31_H8_refuted); all other elements proved for every number."
  },
  {
   "property": "C32",
   "status": "partial",
   "theorems": [
    "C32_L3",
    "C32_TET10",
    "C32_W6",
    "C32_W18",
    "C32_L3_nodes",
    "C32_TET10_nodes",
    "C32_W6_nodes",
    "C32_W18_nodes",
    "C32_L3_linear",
    "C32_TET10_linear",
    "C32_W6_linear",
    "C32_W18_linear",
    "C32_L2",
    "C32_T3",
    "C32_T6",
    "C32_Q4",
    "C32_Q9",
    "C32_H8",
    "C32_H27",
    "C32_TET4_refuted",
    "C32_L2_monomials",
    "C32_T3_monomials",
    "C32_T6_monomials",
    "C32_Q4_monomials",
    "C32_Q9_monomials",
    "C32_TET4_monomials",
    "C32_H8_monomials",
    "C32_H27_monomials",
    "C32_L3_monomials",
    "C32_TET10_monomials",
    "C32_W6_monomials",
    "C32_W18_monomials"
   ],
   "note": "TET4.polybase has ten monomials for four nodes, so functions cannot be generated for TET4 (C32_TET4_refuted); all other elements proved. np.linalg.inv is modelled by an arbitrary exact right inverse."
  },
  {
   "property": "C33",
   "status": "partial",
   "theorems": [
    "C33_integral_unique",
    "C33_integral_riemann",
    "C33_line",
    "C33_line_grid",
    "C33_square",
    "C33_cube",
    "C33_square_mixed",
    "C33_cube_mixed",
    "C33_Quad_1",
    "C33_Quad_4",
    "C33_Quad_9",
    "C33_Tri_1",
    "C33_Tri_3a",
    "C33_Tri_3b",
    "C33_Tet_1",
    "C33_Tet_4",
    "C33_Tet_5",
    "C33_Wedge_3x3",
    "C33_Wedge_3x2_partial",
    "C33_Wedge_3x2_refuted",
    "C33_Wedge_3x2_layers_partial",
    "C33_Tet_11_partial",
    "C33_Tet_11_refuted",
    "C33_Tet_11_outside_refuted",
    "C33_Tet_11_number_partial"
   ],
   "note": "False for two rules: Gauss_Legendre_Wedge_3x2 puts both layers of points at the same height (C33_Wedge_3x2_refuted), Gauss_Legendre_Tet_11 contains a wrong number (C33_Tet_11_refuted), which puts points outside of the tetrahedron (C33_Tet_11_outside_refuted); both are exact for constants only (_partial), and exact to the expected degree once the height or the number is repaired (C33_Wedge_3x2_layers_partial, C33_Tet_11_number_partial). All other rules proved exact up to their degree. gauss_points of the package neumann is trusted to give the Gauss-Legendre points for 1, 2, 3 points."
  },
  {
   "property": "C34",
   "status": "proved",
   "theorems": [
    "C34_T6",
    "C34_H8",
    "C34_H27",
    "C34_TET10",
    "C34_W6",
    "C34_W18"
   ],
   "note": ""
  },
  {
   "property": "C35",
   "status": "partial",
   "theorems": [
    "C35_L2",
    "C35_L3",
    "C35_T3",
    "C35_T6",
    "C35_Q4",
    "C35_Q9",
    "C35_H8",
    "C35_H27",
    "C35_W6",
    "C35_W18",
    "C35_TET4_refuted",
    "C35_TET10_refuted",
    "C35_TET4_on_face_refuted"
   ],
   "note": "False for TET4 and TET10 (C35_TET4_refuted, C35_TET10_refuted): the point returned lies on a face. Proved for all other elements."
  },
  {
   "property": "C36",
   "status": "proved",
   "theorems": [
    "C36_area_tri",
    "C36_vectorized",
    "C36_bulk",
    "C36_affine",
    "C36_orientation",
    "C36_zero"
   ],
   "note": ""
  },
  {
   "property": "C37",
   "status": "partial",
   "theorems": [
    "C37_ccw_partial",
    "C37_ccw_inverse_partial",
    "C37_clockwise_refuted",
    "C37_clockwise_values_refuted",
    "C37_integer_points_refuted",
    "C37_degenerate",
    "C37_local_natural",
    "C37_natural_local",
    "C37_local_global",
    "C37_local_global_natural"
   ],
   "note": "Proved for counterclockwise triangles with floating point coordinates. False for every clockwise triangle (C37_clockwise_refuted: absolute values of two of the areas are used) and for integer arrays (C37_integer_points_refuted)."
  },
  {
   "property": "C38",
   "status": "partial",
   "theorems": [
    "C38_triangles_partial",
    "C38_triangles_neighbours_partial",
    "C38_closed_triangle",
    "C38_triangles_clockwise_refuted",
    "C38_tetrahedra",
    "C38_tetrahedra_neighbours",
    "C38_closed_tetrahedron",
    "C38_localize_partial",
    "C38_inside_partial",
    "C38_localize_refuted",
    "C38_localize_cell_refuted"
   ],
   "note": "Tetrahedra and counterclockwise triangles proved. False for clockwise triangles, and localize_points / get_points_inside_triangles accept points outside because natural coordinates are only compared with 1 from above (C38_localize_refuted)."
  },
  {
   "property": "C39",
   "status": "proved",
   "theorems": [
    "C39_vol_tet",
    "C39_bulk",
    "C39_affine",
    "C39_permutation",
    "C39_zero",
    "C39_natural",
    "C39_degenerate",
    "C39_natural_to_local"
   ],
   "note": ""
  },
  {
   "property": "C40",
   "status": "partial",
   "theorems": [
    "C40_any",
    "C40_dense_any_order",
    "C40_csr_any_order",
    "C40_sum",
    "C40_refuted",
    "C40_repeated_refuted",
    "C40_repeated_partial"
   ],
   "note": "Proved for floating point weights, both formats and every order of execution. False for weights of an integer type (C40_refuted: the result takes this type) and for cells with repeated nodes (C40_repeated_refuted)."
  },
  {
   "property": "C41",
   "status": "partial",
   "theorems": [
    "C41_distribute_bulk",
    "C41_distribute_sparse",
    "C41_sum",
    "C41_conservative",
    "C41_collect",
    "C41_pull",
    "C41_average",
    "C41_constant",
    "C41_unused",
    "C41_round_trip",
    "C41_refuted"
   ],
   "note": "Proved for cells without repeated nodes, for every interleaving of the parallel iterations. With a repeated node an addition may be lost (C41_refuted)."
  },
  {
   "property": "C42",
   "status": "partial",
   "theorems": [
    "C42_explode",
    "C42_explode_in_order",
    "C42_data_partial",
    "C42_data_in_order_partial",
    "C42_refuted",
    "C42_decompose",
    "C42_decompose_in_order",
    "C42_round_trip",
    "C42_order_refuted"
   ],
   "note": "Proved for coordinates; data lose their fractions if the coordinates are integers (C42_refuted)."
  },
  {
   "property": "C43",
   "status": "partial",
   "theorems": [
    "C43_center",
    "C43_center_2d",
    "C43_centers_bulk",
    "C43_unique",
    "C43_translation",
    "C43_permutation",
    "C43_centralize",
    "C43_idempotent",
    "C43_grid",
    "C43_line_refuted",
    "C43_refuted",
    "C43_average",
    "C43_affine",
    "C43_rank_refuted",
    "C43_homogenize"
   ],
   "note": "Proved for floating point coordinates in two and three dimensions. centralize raises for points on a line (C43_line_refuted), does not centralize integer coordinates (C43_refuted); avg_cell_data of 1d data raises NameError (C43_rank_refuted)."
  },
  {
   "property": "C44",
   "status": "proved",
   "theorems": [
    "C44_orientation",
    "C44_area_reference",
    "C44_area_moved",
    "C44_area_rotated",
    "C44_area_reversed",
    "C44_area_convex",
    "C44_moved",
    "C44_rotated",
    "C44_reversed",
    "C44_convex"
   ],
   "note": ""
  },
  {
   "property": "C45",
   "status": "partial",
   "theorems": [
    "C45_within",
    "C45_single",
    "C45_parallel_partial",
    "C45_formats_partial",
    "C45_exact_partial",
    "C45_refuted"
   ],
   "note": "False: rows are filled up with zeros, so point 0 is a neighbour of every point (C45_refuted). What the rows contain is proved (C45_exact_partial); the sequential version, which is not used, is right (C45_single)."
  },
  {
   "property": "C46",
   "status": "partial",
   "theorems": [
    "C46_any_order_partial",
    "C46_sequential_partial",
    "C46_refuted",
    "C46_order_refuted"
   ],
   "note": "False: executed sequentially the search returns the last hit of a row, not the first (C46_refuted), and in parallel the result depends on the order (C46_order_refuted). Proved for every order: a hit is returned whenever there is one."
  },
  {
   "property": "C47",
   "status": "partial",
   "theorems": [
    "C47_TET4",
    "C47_TET4_schedule",
    "C47_W6",
    "C47_W6_schedule",
    "C47_no_layers",
    "C47_integral_refuted"
   ],
   "note": "Proved for floating point coordinates, any number of layers and triangles, and any schedule of the threads. Integer points: layers thinner than 1 collapse (C47_integral_refuted)."
  },
  {
   "property": "C48",
   "status": "partial",
   "theorems": [
    "C48_exact_partial",
    "C48_ordered_partial",
    "C48_order",
    "C48_refuted"
   ],
   "note": "False in general (C48_refuted): the diagonals depend on the order in which each triangle lists its nodes. The exact condition is proved (C48_exact_partial), with a sufficient one (C48_order)."
  },
  {
   "property": "C49",
   "status": "partial",
   "theorems": [
    "C49_copies",
    "C49_in_order",
    "C49_partial",
    "C49_strip",
    "C49_refuted",
    "C49_sides",
    "C49_order_refuted"
   ],
   "note": "Copies and their places proved for cells whose opposite sides list their nodes in the same order, for any schedule; points coincide at crossings at most (C49_partial), never in a single row or column (C49_strip). False where four tiles meet (C49_refuted), and if opposite sides are numbered in opposite directions, as in a single rectangle numbered around, tiles are joined crosswise (C49_order_refuted)."
  },
  {
   "property": "C50",
   "status": "partial",
   "theorems": [
    "C50_partial",
    "C50_integral_refuted",
    "C50_nodes_refuted",
    "C50_import_refuted"
   ],
   "note": "Proved for the body of mesh1d_uniform with two nodes per segment and floating point coordinates, any schedule (C50_partial). The module cannot be imported (C50_import_refuted); integer coordinates and three or more nodes per segment fail (C50_integral_refuted, C50_nodes_refuted)."
  },
  {
   "property": "C51",
   "status": "partial",
   "theorems": [
    "C51_partial",
    "C51_integer_refuted"
   ],
   "note": "Proved for every positive lmax (C51_partial). An lmax that is an int is ignored (C51_integer_refuted)."
  },
  {
   "property": "C52",
   "status": "partial",
   "theorems": [
    "C52_partial",
    "C52_refuted",
    "C52_no_recycling"
   ],
   "note": "Proved for histories in which every request fits (one number, or at least as many as are waiting). Any other request leads to a number used twice (C52_refuted)."
  },
  {
   "property": "C53",
   "status": "partial",
   "theorems": [
    "C53_partial",
    "C53_refuted",
    "C53_subtree_refuted",
    "C53_copy_refuted",
    "C53_points_keep",
    "C53_points_refuted"
   ],
   "note": "Proved for blocks without children if all requests fit. False for blocks that have children, for copies, after requests that do not fit, and for points (C53_*_refuted)."
  },
  {
   "property": "C54",
   "status": "partial",
   "theorems": [
    "C54_T3",
    "C54_Q4",
    "C54_TET4",
    "C54_H8",
    "C54_W6_partial",
    "C54_W6_refuted",
    "C54_triangles_T3",
    "C54_triangles_T6",
    "C54_triangles_Q4",
    "C54_triangles_Q9",
    "C54_tetrahedra_TET4",
    "C54_tetrahedra_H8",
    "C54_tetrahedra_W6",
    "C54_tetrahedra_W18",
    "C54_faces_as_cells",
    "C54_TET4_volume",
    "C54_H8_volume"
   ],
   "note": "Tables of triangles, quadrilaterals, tetrahedra and hexahedra, tables of triangles and tetrahedra, faces and volumes proved; the edges and quadrilaterals of wedges too (C54_W6_partial). The triangles of wedges are written out of bounds (C54_W6_refuted)."
  },
  {
   "property": "C55",
   "status": "partial",
   "theorems": [
    "C55_surfaces",
    "C55_surfaces_unique",
    "C55_surfaces_degenerate",
    "C55_integral_refuted",
    "C55_lines_auto",
    "C55_lines_ref",
    "C55_lines_refs",
    "C55_lean_refuted",
    "C55_plane",
    "C55_plane_triangle",
    "C55_plane_normal",
    "C55_plane_degenerate_partial",
    "C55_parallelogram_refuted"
   ],
   "note": "Frames of surfaces and lines proved for floating point coordinates. False for integer coordinates (C55_integral_refuted), for planes through the corners of any parallelogram (C55_parallelogram_refuted); local z does not lean towards global z for lines along x (C55_lean_refuted)."
  },
  {
   "property": "C56",
   "status": "partial",
   "theorems": [
    "C56_surface",
    "C56_trimesh",
    "C56_trimesh_refuted",
    "C56_planar_sound_partial",
    "C56_three_points_partial",
    "C56_offset_refuted",
    "C56_aligned_refuted",
    "C56_choice_refuted",
    "C56_line_refuted",
    "C56_closed_refuted"
   ],
   "note": "False: is_planar only accepts planes through the origin (C56_offset_refuted and others), is_line is False for all lines (C56_line_refuted), TriMesh.is_planar compares normals only (C56_trimesh_refuted). What the functions do decide is proved."
  },
  {
   "property": "C57",
   "status": "partial",
   "theorems": [
    "C57_closest",
    "C57_furthest",
    "C57_closest_dimensions",
    "C57_furthest_dimensions",
    "C57_closest_many",
    "C57_furthest_many",
    "C57_integral_refuted",
    "C57_matrix",
    "C57_distances",
    "C57_move_points"
   ],
   "note": "Proved for all points and positions (search tree of scipy trusted); several positions of an integer type give wrong furthest points (C57_integral_refuted)."
  },
  {
   "property": "C58",
   "status": "proved",
   "theorems": [
    "C58_round_trip",
    "C58_injective",
    "C58_back",
    "C58_range",
    "C58_thirds",
    "C58_any_case",
    "C58_short",
    "C58_count"
   ],
   "note": "All channels 0..255. Channels above 255 are not rejected by rgb_to_hex (C58_range)."
  },
  {
   "property": "C59",
   "status": "proved",
   "theorems": [
    "C59_H8_to_TET4",
    "C59_H27_to_TET10",
    "C59_octants_cover",
    "C59_octants_within",
    "C59_octants_disjoint",
    "C59_prisms_cover",
    "C59_prisms_within",
    "C59_prisms_disjoint"
   ],
   "note": ""
  },
  {
   "property": "C60",
   "status": "partial",
   "theorems": [
    "C60_W6_to_TET4_refuted"
   ],
   "note": "False for every wedge (C60_W6_to_TET4_refuted): the tetrahedra overlap and leave a gap although volumes add up (C17_W6_to_TET4)."
  },
  {
   "property": "C61",
   "status": "partial",
   "theorems": [
    "C61_values_floating",
    "C61_derivatives_floating",
    "C61_T3_values_partial",
    "C61_T6_values_partial",
    "C61_TET4_values_partial",
    "C61_Q9_values_partial",
    "C61_H27_values_partial",
    "C61_T3_derivatives_partial",
    "C61_T6_derivatives_partial",
    "C61_TET4_derivatives_partial",
    "C61_L2_refuted",
    "C61_Q4_refuted",
    "C61_H8_refuted",
    "C61_L2_derivatives_refuted",
    "C61_Q4_derivatives_refuted",
    "C61_H8_derivatives_refuted"
   ],
   "note": "False for L2, Q4 and H8 at integer points: values and derivatives are truncated (C61_*_refuted). Proved for floating point arrays, and for integer arrays on T3, T6, TET4 and the values of Q9, H27."
  },
  {
   "property": "C62",
   "status": "partial",
   "theorems": [
    "C62_T6_partial",
    "C62_H8_partial",
    "C62_H27_partial",
    "C62_W6_refuted",
    "C62_TET10_refuted",
    "C62_W18_refuted"
   ],
   "note": "Proved for T6, H8 and H27. False for W6 (C62_W6_refuted, caused by the wrong rule), TET10 and W18 (rules of too low a degree)."
  },
  {
   "property": "C63",
   "status": "partial",
   "theorems": [
    "C63_points_of_cells",
    "C63_raises_refuted",
    "C63_refuted",
    "C63_symmetric_partial"
   ],
   "note": "False: loc_to_glob multiplies with the transposed matrix, so it raises unless there are as many points as nodes (C63_raises_refuted) and is wrong then (C63_refuted). points_of_cells is proved right for all points; loc_to_glob for symmetric matrices."
  },
  {
   "property": "C64",
   "status": "partial",
   "theorems": [
    "C64_refuted",
    "C64_partial"
   ],
   "note": "False already for the reference triangle (C64_refuted: the inverse matrix is applied on the wrong side); right only if that matrix is symmetric (C64_partial). np.linalg.inv is modelled by an arbitrary inverse."
  },
  {
   "property": "C65",
   "status": "partial",
   "theorems": [
    "C65_partial",
    "C65_refuted",
    "C65_bounds_refuted"
   ],
   "note": "False (C65_refuted, C65_bounds_refuted): results are stored at the index of the triangle instead of that of the position. C65_partial: right if position k lies in triangle k."
  },
  {
   "property": "C66",
   "status": "partial",
   "theorems": [
    "C66_array_partial",
    "C66_factor",
    "C66_float_refuted"
   ],
   "note": "Proved for one amount per triangle (C66_array_partial); a single number always raises TypeError (C66_float_refuted)."
  },
  {
   "property": "C67",
   "status": "partial",
   "theorems": [
    "C67_right_angle_partial",
    "C67_refuted"
   ],
   "note": "False for all triangles without a right angle at the first node (C67_refuted), proved for those with (C67_right_angle_partial)."
  },
  {
   "property": "C68",
   "status": "proved",
   "theorems": [
    "C68_plane",
    "C68_space",
    "C68_bulk"
   ],
   "note": ""
  },
  {
   "property": "C69",
   "status": "partial",
   "theorems": [
    "C69_areas_T3",
    "C69_areas_Q4",
    "C69_areas_Q9",
    "C69_volumes_TET4",
    "C69_volumes",
    "C69_no_cells_refuted",
    "C69_areas_T6_partial",
    "C69_areas_T6_refuted"
   ],
   "note": "Areas of T3, Q4, Q9 and volumes proved for all cells in space. T6.areas drops the third coordinate (C69_areas_T6_refuted); a block without cells raises (C69_no_cells_refuted)."
  },
  {
   "property": "C70",
   "status": "partial",
   "theorems": [
    "C70_locate_partial",
    "C70_pip_partial",
    "C70_TET4",
    "C70_H8_affine_partial",
    "C70_affine_partial",
    "C70_W6_refuted",
    "C70_H8_refuted",
    "C70_missing_refuted"
   ],
   "note": "Proved in full for TET4. H8: proved for affine cells, false for distorted ones (C70_H8_refuted). W6: positions in the gap of the division into tetrahedra are lost (C70_W6_refuted). TET10 and H27 are not implemented (C70_missing_refuted). For every table the positions found and the weights are characterised (C70_locate_partial, C70_pip_partial)."
  },
  {
   "property": "C71",
   "status": "partial",
   "theorems": [
    "C71_same_partial",
    "C71_same_pip_partial",
    "C71_sound_partial",
    "C71_refuted",
    "C71_single_refuted"
   ],
   "note": "False: with the default of four neighbours positions are lost in graded meshes (C71_refuted), and a mesh of one tetrahedron raises (C71_single_refuted). Proved: lazy results are right, and nothing is lost if all tetrahedra are neighbours."
  },
  {
   "property": "C72",
   "status": "partial",
   "theorems": [
    "C72_refuted",
    "C72_partial"
   ],
   "note": "Works for three variables per node only (C72_partial), fails for every other number including the default 2 (C72_refuted)."
  },
  {
   "property": "C73",
   "status": "partial",
   "theorems": [
    "C73_nearest",
    "C73_nearest_one",
    "C73_refuted"
   ],
   "note": "The k nearest points are returned (C73_nearest, C73_nearest_one; the search tree of scipy is trusted), but max_distance is ignored (C73_refuted)."
  },
  {
   "property": "C74",
   "status": "partial",
   "theorems": [
    "C74_locate_partial",
    "C74_pip_partial",
    "C74_clockwise_refuted"
   ],
   "note": "Proved for counterclockwise triangles; false for every clockwise one (C74_clockwise_refuted)."
  },
  {
   "property": "C75",
   "status": "partial",
   "theorems": [
    "C75_lengths",
    "C75_distances",
    "C75_pcoords",
    "C75_inside",
    "C75_ends",
    "C75_range_refuted",
    "C75_points",
    "C75_no_points",
    "C75_selected_partial",
    "C75_ids_refuted",
    "C75_other_refuted",
    "C75_L2",
    "C75_L3_refuted"
   ],
   "note": "Lengths, ratios and unselected cells proved. Ratios in the documented range [-1, 1] give points outside (C75_range_refuted); ids of cells are used as positions (C75_ids_refuted, C75_other_refuted); the middle node of a curved quadratic line is replaced by a point of the chord (C75_L3_refuted)."
  },
  {
   "property": "C76",
   "status": "partial",
   "theorems": [
    "C76_matrix",
    "C76_shape_refuted",
    "C76_det_1d_partial",
    "C76_speed_L2",
    "C76_L3_refuted"
   ],
   "note": "Proved for all cells with as many coordinates as local coordinates. Surfaces in space raise (C76_shape_refuted); lines with three nodes use the distance of the ends (C76_L3_refuted)."
  },
  {
   "property": "C77",
   "status": "proved",
   "theorems": [
    "C77_projected",
    "C77_planar",
    "C77_distances",
    "C77_centre",
    "C77_orientation"
   ],
   "note": ""
  },
  {
   "property": "C78",
   "status": "partial",
   "theorems": [
    "C78_partial",
    "C78_level_partial",
    "C78_not_planar",
    "C78_offset_refuted",
    "C78_tilted_refuted"
   ],
   "note": "Proved for meshes in coordinate planes through the origin; what is returned for all others is proved too (C78_partial). The position along the new axis is lost (C78_offset_refuted) and tilted planes give a smaller volume (C78_tilted_refuted)."
  },
  {
   "property": "C79",
   "status": "partial",
   "theorems": [
    "C79_partial",
    "C79_gap_refuted",
    "C79_widened_refuted"
   ],
   "note": "Proved for ribs that touch the plate and are not wider than it (C79_partial). A rib above the plate is joined to it or lost (C79_gap_refuted), a rib wider than the plate makes the plate wider (C79_widened_refuted)."
  },
  {
   "property": "C80",
   "status": "partial",
   "theorems": [
    "C80_partial",
    "C80_conforming_refuted"
   ],
   "note": "Positive volumes, no overlaps, exact region and midpoints proved (C80_partial). The tetrahedra never conform (C80_conforming_refuted)."
  },
  {
   "property": "C81",
   "status": "partial",
   "theorems": [
    "C81_partial",
    "C81_slope_refuted",
    "C81_ignored_refuted",
    "C81_missing"
   ],
   "note": "Proved for the radius or the slope with b or the pitch (C81_partial); other combinations raise TypeError (C81_missing). The radius with the slope gives another slope (C81_slope_refuted), additional parameters are ignored (C81_ignored_refuted)."
  },
  {
   "property": "C82",
   "status": "partial",
   "theorems": [
    "C82_partial",
    "C82_count_partial",
    "C82_int",
    "C82_float_refuted"
   ],
   "note": "Proved for arrays and ints as radius, any height and size (C82_partial, C82_int, C82_count_partial). A radius that is a float raises IndexError (C82_float_refuted)."
  },
  {
   "property": "C83",
   "status": "proved",
   "theorems": [
    "C83_quads",
    "C83_hexas",
    "C83_2d",
    "C83_3d"
   ],
   "note": "Uniform grids in two and three dimensions, by name and by shape of the cells. Grids with given positions (bins) are the subject of C43 and the like: their average is not the centre of the box."
  },
  {
   "property": "C84",
   "status": "partial",
   "theorems": [
    "C84_partial",
    "C84_pieces",
    "C84_refuted"
   ],
   "note": "Triangles with three nodes (C84_partial). The pieces of every straight triangle with six nodes overlap, leave gaps and have mixed orientations (C84_refuted)."
  },
  {
   "property": "C85",
   "status": "proved",
   "theorems": [
    "C85_cells",
    "C85_cells_only",
    "C85_numbering"
   ],
   "note": "The encoding and the numbering of all eleven classes with a VTK type. VTK's conventions are part of the specification (TableSpec.v); VTK itself is not modelled."
  },
  {
   "property": "C86",
   "status": "partial",
   "theorems": [
    "C86_partial",
    "C86_subdivisions_refuted",
    "C86_default_refuted",
    "C86_single_refuted",
    "C86_int_refuted"
   ],
   "note": "A regular grid with at least two points in both directions (C86_partial). There is one subdivision less than asked for (C86_subdivisions_refuted), by default one point (C86_default_refuted, C86_single_refuted), and an int as shape fails (C86_int_refuted). Random points and the Delaunay triangulation itself are not modelled."
  },
  {
   "property": "C87",
   "status": "partial",
   "theorems": [
    "C87_twice",
    "C87_partial",
    "C87_tetrahedra_refuted",
    "C87_solids_refuted",
    "C87_T6_refuted"
   ],
   "note": "Triangles and quadrilaterals (C87_partial), twice (C87_twice). Tetrahedra, hexahedra and wedges keep their orientation (C87_tetrahedra_refuted, C87_solids_refuted); triangles with six nodes are destroyed (C87_T6_refuted)."
  },
  {
   "property": "C88",
   "status": "partial",
   "theorems": [
    "C88_ambient",
    "C88_partial",
    "C88_plain",
    "C88_unique",
    "C88_own",
    "C88_frame",
    "C88_origin",
    "C88_refuted"
   ],
   "note": "Proved for clouds in a CartesianFrame (C88_partial, C88_unique, C88_frame), without a target for all (C88_ambient), and for targets at the origin (C88_plain). Clouds in a frame of the package neumann ignore the origin of the target (C88_refuted)."
  },
  {
   "property": "C89",
   "status": "partial",
   "theorems": [
    "C89_move",
    "C89_move_partial",
    "C89_keeps",
    "C89_move_refuted",
    "C89_vector_refuted",
    "C89_centralize",
    "C89_centralize_partial",
    "C89_centralize_refuted",
    "C89_frame",
    "C89_deep_copy",
    "C89_shallow_copy_refuted",
    "C89_origo_refuted",
    "C89_origo_axes_refuted"
   ],
   "note": "Moves by a vector with a frame, centralize with a target, moves and deep copies of frames proved. Without a frame the points move in their own frame and not in the root frame (C89_move_refuted), the frame of a Vector is ignored (C89_vector_refuted), centralize without a target fails in turned frames (C89_centralize_refuted), a shallow copy of a frame shares its origin (C89_shallow_copy_refuted), the setter of the origin does not set it (C89_origo_refuted, C89_origo_axes_refuted)."
  },
  {
   "property": "C90",
   "status": "partial",
   "theorems": [
    "C90_partial",
    "C90_total",
    "C90_mask",
    "C90_mask_length",
    "C90_negative_refuted",
    "C90_long_refuted",
    "C90_long_fails_refuted",
    "C90_reverse_refuted",
    "C90_mask_refuted",
    "C90_mask_flags_refuted",
    "C90_sort"
   ],
   "note": "Proved for lists, indices and slices with a positive step within the array, and for masks if there are indices already; sorting proved. Negative bounds, bounds behind the end, negative steps and masks give wrong indices (C90_*_refuted)."
  },
  {
   "property": "C91",
   "status": "partial",
   "theorems": [
    "C91_partial",
    "C91_frames",
    "C91_moves_refuted",
    "C91_single_refuted",
    "C91_empty_refuted",
    "C91_rows_refuted",
    "C91_activity_refuted",
    "C91_copy_refuted"
   ],
   "note": "Proved if the root has the standard frame or none (C91_partial); in other frames the exact result is proved: the frame is applied once more (C91_frames, C91_moves_refuted). Blocks with a single point, meshes without cells and fields with rows that a block lacks raise (C91_single_refuted, C91_empty_refuted, C91_rows_refuted); activity is lost, inplace=False ignores the default values."
  },
  {
   "property": "C92",
   "status": "partial",
   "theorems": [
    "C92_partial",
    "C92_new_partial",
    "C92_new_frames",
    "C92_centers_partial",
    "C92_origins_refuted",
    "C92_new_refuted",
    "C92_centers_refuted"
   ],
   "note": "Coordinates proved if all frames have the origin of the root (C92_partial), centres without a target and with all points at the root (C92_centers_partial). Origins of blocks are ignored (C92_origins_refuted), a new mesh applies its frame twice (C92_new_frames, C92_new_refuted), centres with a target are wrong (C92_centers_refuted)."
  },
  {
   "property": "C93",
   "status": "partial",
   "theorems": [
    "C93_partial",
    "C93_axes",
    "C93_indices",
    "C93_frameless_refuted",
    "C93_moves_refuted",
    "C93_ids_refuted",
    "C93_numbers_refuted",
    "C93_frames_refuted"
   ],
   "note": "Proved for frames at the origin and points numbered by position (C93_partial). Otherwise copies are elsewhere or fail (C93_moves_refuted, C93_ids_refuted, C93_frameless_refuted); cells may get the same number twice, blocks without points lose their frame."
  },
  {
   "property": "C94",
   "status": "partial",
   "theorems": [
    "C94_move_partial",
    "C94_center_partial",
    "C94_center_part",
    "C94_centralize_partial",
    "C94_part_refuted",
    "C94_nested_refuted",
    "C94_target_refuted",
    "C94_axes_refuted",
    "C94_bends_refuted"
   ],
   "note": "Proved for blocks with points and no other points below (C94_move_partial, C94_center_partial, C94_centralize_partial), the centre also for blocks without points (C94_center_part). Moving other blocks raises (C94_part_refuted, C94_nested_refuted); centralize ignores axes and misplaces turned targets and nested points."
  },
  {
   "property": "C95",
   "status": "partial",
   "theorems": [
    "C95_partial",
    "C95_nested_refuted",
    "C95_frame_refuted",
    "C95_ids_refuted"
   ],
   "note": "Proved if only the root has points, numbered by position, and cell blocks are not nested (C95_partial). Nested cell blocks are renumbered twice (C95_nested_refuted), frames of points are lost (C95_frame_refuted), other numbers raise KeyError (C95_ids_refuted)."
  },
  {
   "property": "C96",
   "status": "partial",
   "theorems": [
    "C96_partial",
    "C96_nested_refuted",
    "C96_ids_refuted",
    "C96_no_points"
   ],
   "note": "Proved for blocks without points below them (C96_partial). Cells of nested blocks with points get wrong points (C96_nested_refuted), and the mesh gets other indices (C96_ids_refuted). That the detached mesh shares its arrays with the mesh is not modelled."
  },
  {
   "property": "C97",
   "status": "partial",
   "theorems": [
    "C97_partial",
    "C97_closed",
    "C97_labels_refuted",
    "C97_labels_fail_refuted",
    "C97_parameters_refuted",
    "C97_keywords_refuted"
   ],
   "note": "Proved for nodes labelled 1, 2, 3, ... in each part and keyword lines *ELEMENT, TYPE=C3D4 (C97_partial); the meshes are closed surfaces for every file (C97_closed). Other labels give other solids or fail (C97_labels_refuted, C97_labels_fail_refuted), other orders of the parameters are ignored (C97_parameters_refuted), *NODE PRINT fails (C97_keywords_refuted)."
  },
  {
   "property": "C98",
   "status": "partial",
   "theorems": [
    "C98_partial",
    "C98_inward_refuted",
    "C98_interior_refuted",
    "C98_flat_refuted",
    "C98_box",
    "C98_box_empty_refuted",
    "C98_empty_block_refuted",
    "C98_names",
    "C98_set_names_partial",
    "C98_letters",
    "C98_set_names_refuted"
   ],
   "note": "Facets, normals and the box proved for solids with volume (C98_partial, C98_box), different names of files for all runs (C98_names), names of sets if all have names. Without --flip normals of positive tetrahedra point inwards (C98_inward_refuted), faces between tetrahedra are written too (C98_interior_refuted), empty blocks and flat faces fail (C98_box_empty_refuted, C98_flat_refuted), names are shifted by a block without a name (C98_set_names_refuted)."
  },
  {
   "property": "C99",
   "status": "partial",
   "theorems": [
    "C99_ambient",
    "C99_target_partial",
    "C99_empty",
    "C99_partial",
    "C99_refuted"
   ],
   "note": "Proved for clouds (C99_ambient, C99_target_partial) and for meshes whose frames have the origin of the root (C99_partial). With other origins the box is wrong (C99_refuted)."
  },
  {
   "property": "C100",
   "status": "partial",
   "theorems": [
    "C100_closest_partial",
    "C100_furthest_partial",
    "C100_closest_several_partial",
    "C100_furthest_several_partial",
    "C100_mesh_partial",
    "C100_cells_partial",
    "C100_mesh_several_partial",
    "C100_cells_several_partial",
    "C100_refuted",
    "C100_furthest_refuted",
    "C100_indices_refuted",
    "C100_furthest_indices_refuted"
   ],
   "note": "Proved for positions given in frames at the origin (C100_closest_partial, C100_furthest_partial and the forms for several positions), for meshes (C100_mesh_partial) and cells (C100_cells_partial). The origin of a frame is ignored (C100_refuted, C100_furthest_refuted); several points found lose their indices (C100_indices_refuted, C100_furthest_indices_refuted)."
  },
  {
   "property": "C101",
   "status": "partial",
   "theorems": [
    "C101_partial",
    "C101_standard",
    "C101_none",
    "C101_indices",
    "C101_number",
    "C101_refuted",
    "C101_stale_refuted"
   ],
   "note": "Proved if the cells have different numbers, which is so in standard form (C101_partial, C101_standard). Copies have clashing numbers (C101_refuted), mappers become stale (C101_stale_refuted)."
  },
  {
   "property": "C102",
   "status": "partial",
   "theorems": [
    "C102_partial",
    "C102_coords_partial",
    "C102_centers_partial",
    "C102_number_partial",
    "C102_number_none",
    "C102_refuted",
    "C102_coords_refuted",
    "C102_number_refuted"
   ],
   "note": "Proved for parts with one set of points (C102_partial, C102_coords_partial, C102_centers_partial, C102_number_partial). Nested points are confused or not counted (C102_refuted, C102_coords_refuted, C102_number_refuted)."
  },
  {
   "property": "C103",
   "status": "partial",
   "theorems": [
    "C103_places",
    "C103_partial",
    "C103_blocks",
    "C103_numbers",
    "C103_none",
    "C103_refuted",
    "C103_frames",
    "C103_frame_refuted",
    "C103_attached_refuted",
    "C103_coincident_refuted"
   ],
   "note": "Triangles at the places found by the tool (C103_places); for one block of tetrahedra with different points in a frame that does not move, exactly the boundary faces (C103_partial); for several blocks the faces of each (C103_blocks), so faces between blocks remain (C103_refuted). Other frames are applied again (C103_frames, C103_frame_refuted) or give wrong nodes (C103_attached_refuted); coincident points are confused (C103_coincident_refuted)."
  },
  {
   "property": "C104",
   "status": "partial",
   "theorems": [
    "C104_partial",
    "C104_refuted",
    "C104_missing_refuted",
    "C104_one_refuted"
   ],
   "note": "Proved without a greatest distance (C104_partial). Recent versions of scipy ignore it (C104_refuted), with old ones points without k points in reach fail (C104_missing_refuted), and so does k = 1 (C104_one_refuted)."
  },
  {
   "property": "C105",
   "status": "proved",
   "theorems": [
    "C105_edges",
    "C105_corners",
    "C105_short"
   ],
   "note": "Edges, numbers of the sides (C105_edges) and the corners from them (C105_corners); cells with less than three nodes raise (C105_short)."
  },
  {
   "property": "C106",
   "status": "partial",
   "theorems": [
    "C106_arrays",
    "C106_cuts",
    "C106_cuts_wrong",
    "C106_vstack",
    "C106_unique",
    "C106_refuted"
   ],
   "note": "Proved for arrays (C106_arrays), lengths (C106_cuts, C106_cuts_wrong), np.vstack and np.unique. A list of lists raises (C106_refuted)."
  },
  {
   "property": "C107",
   "status": "partial",
   "theorems": [
    "C107_topology",
    "C107_empty",
    "C107_cells",
    "C107_dicts",
    "C107_irregular",
    "C107_adjacency",
    "C107_refuted"
   ],
   "note": "Topology (C107_topology, C107_empty), cells at nodes (C107_cells, C107_dicts, C107_irregular) and neighbours (C107_adjacency) proved in terms of the numbers of the nodes. Blocks with their own points have clashing numbers (C107_refuted)."
  },
  {
   "property": "C108",
   "status": "partial",
   "theorems": [
    "C108_partial",
    "C108_no_volumes",
    "C108_array_partial",
    "C108_uniform_partial",
    "C108_uniform_refuted",
    "C108_length",
    "C108_source",
    "C108_store",
    "C108_default_refuted",
    "C108_rows_refuted"
   ],
   "note": "Proved for volumes and weights of a floating point type (C108_partial, C108_array_partial) and for equal shares of cells with the same number of nodes (C108_uniform_partial). Equal shares fail for other meshes (C108_uniform_refuted), storing fails without a name (C108_default_refuted) and for the factors of the mesh (C108_rows_refuted)."
  },
  {
   "property": "C109",
   "status": "partial",
   "theorems": [
    "C109_volumes",
    "C109_default",
    "C109_products",
    "C109_areas",
    "C109_partial",
    "C109_refuted",
    "C109_solids"
   ],
   "note": "Volumes proved (C109_volumes, C109_default, C109_products), areas for meshes without lines (C109_partial). Lines are counted with their cross sections (C109_refuted); meshes of solids raise (C109_solids)."
  },
  {
   "property": "C110",
   "status": "partial",
   "theorems": [
    "C110_disk",
    "C110_rings",
    "C110_no_angles",
    "C110_distances",
    "C110_hole",
    "C110_partial",
    "C110_refuted"
   ],
   "note": "Points and triangles (C110_disk, C110_rings, C110_distances, C110_hole); for triangulations between rings that are far enough apart, area and number of triangles (C110_partial). For rings close to each other triangles at the hole are lost (C110_refuted)."
  },
  {
   "property": "C111",
   "status": "partial",
   "theorems": [
    "C111_partial",
    "C111_order_refuted",
    "C111_angle_refuted",
    "C111_size"
   ],
   "note": "Volume and layers (C111_partial). The first two sizes are read in the other order than documented (C111_order_refuted), the angle is ignored (C111_angle_refuted)."
  },
  {
   "property": "C112",
   "status": "partial",
   "theorems": [
    "C112_points",
    "C112_points_default",
    "C112_partial",
    "C112_nodes",
    "C112_volume_partial",
    "C112_quadratic_tetrahedra",
    "C112_orders",
    "C112_thin_refuted",
    "C112_negative",
    "C112_coarse_refuted",
    "C112_quadratic_refuted"
   ],
   "note": "Points (C112_points, C112_points_default, C112_nodes), layers (C112_partial), volume (C112_volume_partial), quadratic tetrahedra. No cells for low or small cubes (C112_thin_refuted, C112_coarse_refuted), quadratic wedges raise (C112_quadratic_refuted)."
  },
  {
   "property": "C113",
   "status": "partial",
   "theorems": [
    "C113_partial",
    "C113_refuted",
    "C113_unknown_refuted",
    "C113_pyvista",
    "C113_pyvista_unknown"
   ],
   "note": "Proved for meshes of meshio with blocks of different types (C113_partial) and for pyvista (C113_pyvista, C113_pyvista_unknown). Of two blocks of the same type the first is lost (C113_refuted), unsupported types are skipped without notice (C113_unknown_refuted)."
  },
  {
   "property": "C114",
   "status": "partial",
   "theorems": [
    "C114_partial",
    "C114_refuted",
    "C114_missing",
    "C114_no_fields_refuted"
   ],
   "note": "Proved for meshes with points and cells (C114_partial, C114_missing). Without cells or points a TypeError results (C114_refuted), with an empty list of fields an AttributeError (C114_no_fields_refuted)."
  },
  {
   "property": "C115",
   "status": "partial",
   "theorems": [
    "C115_dict_partial",
    "C115_list_partial",
    "C115_unknown",
    "C115_changed_refuted",
    "C115_again_refuted",
    "C115_tuple_refuted",
    "C115_empty_refuted",
    "C115_wrapper",
    "C115_wrapper_refuted"
   ],
   "note": "Selection proved for lists of names (C115_dict_partial, C115_list_partial, C115_unknown, C115_wrapper). Arguments are changed (C115_changed_refuted, C115_again_refuted, C115_wrapper_refuted); tuples fail (C115_tuple_refuted), an empty list fails for to_list (C115_empty_refuted)."
  },
  {
   "property": "C116",
   "status": "partial",
   "theorems": [
    "C116_registry",
    "C116_meshio",
    "C116_inherit",
    "C116_replace",
    "C116_partial",
    "C116_refuted",
    "C116_bases_refuted"
   ],
   "note": "Registry proved (C116_registry, C116_meshio, C116_inherit, C116_replace), names that the base does not have (C116_partial). Own names are overwritten by those of the base (C116_refuted), the second base prevails (C116_bases_refuted)."
  },
  {
   "property": "C117",
   "status": "partial",
   "theorems": [
    "C117_partial",
    "C117_places",
    "C117_refuted",
    "C117_nested_refuted",
    "C117_empty_refuted"
   ],
   "note": "Proved for blocks of cells without others below them (C117_partial, C117_places). Nested cells are shown twice (C117_refuted) or fail (C117_nested_refuted); without cells an IndexError results (C117_empty_refuted)."
  },
  {
   "property": "C118",
   "status": "partial",
   "theorems": [
    "C118_partial",
    "C118_points",
    "C118_array",
    "C118_cells",
    "C118_nodes",
    "C118_missing",
    "C118_other",
    "C118_refuted",
    "C118_collection_refuted",
    "C118_collection_lost_refuted",
    "C118_nested_refuted",
    "C118_announced_partial",
    "C118_announced_array",
    "C118_announced_none",
    "C118_promise_refuted"
   ],
   "note": "Proved if the field fits and no cells are nested (C118_partial, C118_points, C118_array, C118_cells, C118_nodes, C118_missing, C118_other). Data of as many cells as points is shown at the points (C118_refuted), collections have no data (C118_collection_refuted, C118_collection_lost_refuted), data of nested cells is rejected (C118_nested_refuted), and blocks are announced with data that they do not show if there are several blocks with points (C118_promise_refuted; with one such block this is excluded, C118_announced_partial)."
  },
  {
   "property": "C119",
   "status": "partial",
   "theorems": [
    "C119_partial",
    "C119_refuted",
    "C119_no_points_refuted"
   ],
   "note": "Proved for cells that refer to the points of the source of the mesh (C119_partial). Blocks with points of their own are drawn elsewhere (C119_refuted), meshes without points at the root fail (C119_no_points_refuted)."
  },
  {
   "property": "C120",
   "status": "partial",
   "theorems": [
    "C120_partial",
    "C120_plain",
    "C120_refuted",
    "C120_stolen_refuted",
    "C120_pops_refuted"
   ],
   "note": "Proved but for the colour (C120_partial) and for plots without data (C120_plain). A plot with data removes the colour from the stored configuration (C120_refuted, C120_stolen_refuted, C120_pops_refuted)."
  },
  {
   "property": "C121",
   "status": "partial",
   "theorems": [
    "C121_points_partial",
    "C121_cells_partial",
    "C121_refuted",
    "C121_uneven_refuted"
   ],
   "note": "Proved for the blocks below an object, if they have equally many fields (C121_points_partial, C121_cells_partial). Own fields are missing (C121_refuted), different numbers of fields fail (C121_uneven_refuted)."
  },
  {
   "property": "C122",
   "status": "partial",
   "theorems": [
    "C122_partial",
    "C122_one_refuted",
    "C122_around_partial",
    "C122_around_refuted"
   ],
   "note": "Proved: the k nearest cells including the cell itself (C122_partial, C122_one_refuted: with k = 1 only itself), rows of the cells within the radius up to ten (C122_around_partial). The greatest distance is ignored; rows are filled up with cell 0 (C122_around_refuted)."
  },
  {
   "property": "C123",
   "status": "partial",
   "theorems": [
    "C123_partial",
    "C123_cells_partial",
    "C123_cells_at_partial",
    "C123_unknown",
    "C123_position",
    "C123_refuted",
    "C123_three_refuted",
    "C123_swapped_refuted"
   ],
   "note": "Proved without selected cells (C123_partial) and for cells whose indices are their positions, with any number of positions but three (C123_cells_partial, C123_cells_at_partial, C123_unknown). Indices are used as positions (C123_position, C123_refuted); three positions fail or are exchanged (C123_three_refuted, C123_swapped_refuted)."
  },
  {
   "property": "C124",
   "status": "partial",
   "theorems": [
    "C124_partial",
    "C124_surface_partial",
    "C124_single",
    "C124_refuted"
   ],
   "note": "Proved for a frame for each cell (C124_partial, C124_surface_partial). With a target frame all coordinates are equal (C124_single, C124_refuted)."
  },
  {
   "property": "C125",
   "status": "partial",
   "theorems": [
    "C125_solid",
    "C125_surface",
    "C125_T3",
    "C125_TET4",
    "C125_given",
    "C125_missing",
    "C125_line_partial",
    "C125_refuted"
   ],
   "note": "Proved for solids, surfaces, triangles and tetrahedra (C125_solid, C125_surface, C125_T3, C125_TET4, C125_given, C125_missing), for lines with given matrices (C125_line_partial). Derivatives fail for lines (C125_refuted)."
  },
  {
   "property": "C126",
   "status": "partial",
   "theorems": [
    "C126_unique",
    "C126_detached",
    "C126_surface_partial",
    "C126_solid_partial",
    "C126_refuted"
   ],
   "note": "Proved: indices and points (C126_unique, C126_detached), simplices of surfaces and solids (C126_surface_partial, C126_solid_partial). For lines the calls do not end (C126_refuted)."
  },
  {
   "property": "C127",
   "status": "partial",
   "theorems": [
    "C127_partial",
    "C127_only",
    "C127_shape",
    "C127_back_partial",
    "C127_refuted"
   ],
   "note": "Proved for frames with the axes of space (C127_partial, C127_back_partial) and, for all frames, that distances are kept (C127_shape). For any other axes every rotation is wrong (C127_only, C127_refuted)."
  },
  {
   "property": "C128",
   "status": "partial",
   "theorems": [
    "C128_partial",
    "C128_whole_partial",
    "C128_part_refuted",
    "C128_axes_refuted",
    "C128_frame_refuted"
   ],
   "note": "Proved for frames with the axes of space, for blocks with points (C128_partial) and blocks that use all points of their source (C128_whole_partial). Wrong for other axes (C128_axes_refuted), blocks that use some of the points (C128_part_refuted) and blocks without points that have a frame (C128_frame_refuted)."
  },
  {
   "property": "C129",
   "status": "partial",
   "theorems": [
    "C129_partial",
    "C129_value",
    "C129_refuted"
   ],
   "note": "Proved for frames with the axes of space whose origin the rotation does not move (C129_partial). For other origins the block is displaced by a given vector (C129_value, C129_refuted)."
  },
  {
   "property": "C130",
   "status": "partial",
   "theorems": [
    "C130_partial",
    "C130_refuted"
   ],
   "note": "Proved: the frames are right exactly if the rotations can be exchanged (C130_partial). Not in general (C130_refuted). This relies on Frame.rotate of the package neumann orienting each frame relative to itself."
  },
  {
   "property": "C131",
   "status": "partial",
   "theorems": [
    "C131_new",
    "C131_new_block",
    "C131_partial",
    "C131_ready",
    "C131_no_points",
    "C131_leave",
    "C131_refuted"
   ],
   "note": "Proved for new meshes (C131_new, C131_new_block) and for blocks that join a mesh with points for the first time (C131_partial, C131_ready). New cells cannot join a mesh without points (C131_no_points). Leaving removes just the block (C131_leave). A block that leaves one mesh for another keeps the points of the first (C131_refuted)."
  },
  {
   "property": "C132",
   "status": "partial",
   "theorems": [
    "C132_deep",
    "C132_separate",
    "C132_partial",
    "C132_refuted"
   ],
   "note": "Proved for deep copies (C132_deep, C132_separate) and for shallow copies whose root has no cells that refer to points (C132_partial). The cells of the root of a shallow copy do not follow its points (C132_refuted)."
  },
  {
   "property": "C133",
   "status": "partial",
   "theorems": [
    "C133_unlinked",
    "C133_partial",
    "C133_stale",
    "C133_refuted",
    "C133_standard",
    "C133_detach_partial",
    "C133_detach_refuted",
    "C133_shared_refuted"
   ],
   "note": "Proved for to_standard_form, where no block has exactly one point (C133_standard); for nummrg if the cells refer to nothing (C133_unlinked) or all points are used (C133_partial); for detached blocks without cells of their own (C133_detach_partial). Otherwise nummrg leaves the cells at the old points (C133_stale, C133_refuted), and detached cells have no coordinates (C133_detach_refuted) and shared points (C133_shared_refuted). nummrg is modelled for meshes without children, detach without renumbering."
  },
  {
   "property": "C134",
   "status": "partial",
   "theorems": [
    "C134_size",
    "C134_partial",
    "C134_total",
    "C134_zero_refuted",
    "C134_number_refuted",
    "C134_edge_refuted",
    "C134_type_refuted"
   ],
   "note": "Proved: which size is asked for (C134_size, C134_total), that a greatest area is respected and a greatest edge length by equilateral elements (C134_partial). A greatest number of elements is in fact a least number (C134_number_refuted), other elements have arbitrarily long edges (C134_edge_refuted), values of the other type are no limit (C134_type_refuted), zero elements are an error (C134_zero_refuted)."
  },
  {
   "property": "C135",
   "status": "partial",
   "theorems": [
    "C135_partial",
    "C135_limits_partial",
    "C135_circle",
    "C135_missing",
    "C135_unknown",
    "C135_rectangle_partial",
    "C135_rectangle_refuted",
    "C135_hollow_refuted",
    "C135_integer_refuted",
    "C135_example_refuted",
    "C135_line",
    "C135_wrap",
    "C135_keyword_refuted",
    "C135_replaced_refuted"
   ],
   "note": "Proved for CHS, I, TFI, PFC, TFC and T (C135_partial, C135_limits_partial, C135_circle), for missing parameters and unknown shapes (C135_missing, C135_unknown) and for LineSection with a first argument (C135_line, C135_wrap). RHS cannot be made (C135_hollow_refuted), RS only with a thickness (C135_rectangle_partial, C135_rectangle_refuted), integer thicknesses do not limit the mesh (C135_integer_refuted), the documented example fails (C135_example_refuted), a shape as keyword is ignored or replaces the section (C135_keyword_refuted, C135_replaced_refuted)."
  },
  {
   "property": "C136",
   "status": "partial",
   "theorems": [
    "C136_corners",
    "C136_subdivide",
    "C136_order_refuted",
    "C136_centre",
    "C136_centre_refuted"
   ],
   "note": "Proved: the triangles and their areas are kept, the pieces fill them (C136_corners, C136_subdivide). The mean of the vertices is at the origin, not the centre of the section (C136_centre, C136_centre_refuted); only order 1 works (C136_order_refuted)."
  },
  {
   "property": "C137",
   "status": "partial",
   "theorems": [
    "C137_partial",
    "C137_refuted"
   ],
   "note": "Proved with the frame of space (C137_partial). Without a frame it is an error (C137_refuted)."
  },
  {
   "property": "C138",
   "status": "partial",
   "theorems": [
    "C138_partial",
    "C138_refuted",
    "C138_dictionary_refuted"
   ],
   "note": "Proved for get_section_properties after any calls and for the attributes after a calculation (C138_partial). Before it they are None or an error (C138_refuted, C138_dictionary_refuted). What the library calculates is a parameter."
  },
  {
   "property": "C139",
   "status": "partial",
   "theorems": [
    "C139_values_partial",
    "C139_derivatives_partial",
    "C139_matrix_partial",
    "C139_default_refuted",
    "C139_number_refuted",
    "C139_integer_refuted",
    "C139_line_refuted",
    "C139_line_rows_refuted",
    "C139_empty_refuted",
    "C139_replaced_refuted"
   ],
   "note": "Proved for floating point numbers in arrays of two dimensions, at least one point, all classes but L2, the number of unknowns given (C139_values_partial, C139_derivatives_partial, C139_matrix_partial). Otherwise results change once functions have been generated (C139_default_refuted, C139_number_refuted, C139_integer_refuted, C139_line_refuted, C139_line_rows_refuted, C139_empty_refuted); the formulas are no longer used then (C139_replaced_refuted)."
  },
  {
   "property": "C140",
   "status": "partial",
   "theorems": [
    "C140_partial",
    "C140_values_partial",
    "C140_plane_refuted",
    "C140_derivatives_refuted",
    "C140_line_refuted",
    "C140_nodes_refuted"
   ],
   "note": "Proved in three dimensions: one point is an array of one point (C140_partial, C140_values_partial), the first dimension being kept. In two dimensions one point is an error (C140_plane_refuted) or gives two blocks (C140_derivatives_refuted); lines: C140_line_refuted, C140_nodes_refuted."
  },
  {
   "property": "C141",
   "status": "partial",
   "theorems": [
    "C141_partial",
    "C141_pairs_partial",
    "C141_nodes",
    "C141_refuted",
    "C141_turned_refuted",
    "C141_TET4_refuted"
   ],
   "note": "Proved for TET10, H8, H27, W6, W18 and cells an affine map takes to the reference cell, if the matrix of monomials has an inverse (C141_partial, C141_pairs_partial), and for the nodes of all cells with an inverse (C141_nodes). False for other cells (C141_refuted); a turned cube has no inverse (C141_turned_refuted); TET4 fails (C141_TET4_refuted)."
  },
  {
   "property": "C142",
   "status": "partial",
   "theorems": [
    "C142_table",
    "C142_partial",
    "C142_refuted",
    "C142_knn_table",
    "C142_knn_refuted",
    "C142_narrow"
   ],
   "note": "Proved: the table (C142_table) and, with C141, points in cells (C142_partial). Points of other cells are missed (C142_refuted). With neighbours the columns are about the first cells instead of the neighbours (C142_knn_table, C142_knn_refuted, C142_narrow)."
  },
  {
   "property": "C143",
   "status": "partial",
   "theorems": [
    "C143_partial",
    "C143_last",
    "C143_refuted",
    "C143_empty"
   ],
   "note": "Proved: some position for each value, in every order of the iterations, the inverse if there are no duplicates (C143_partial, C143_empty). It is the last one in a sequential loop (C143_last) and may be any in a parallel one (C143_refuted)."
  },
  {
   "property": "C144",
   "status": "proved",
   "theorems": [
    "C144_points",
    "C144_lines",
    "C144_given"
   ],
   "note": "Points and triangles of the copies (C144_points), edges and sides, calculated or given (C144_lines, C144_given)."
  },
  {
   "property": "C145",
   "status": "partial",
   "theorems": [
    "C145_partial",
    "C145_fail",
    "C145_lines",
    "C145_given_partial",
    "C145_given_refuted",
    "C145_backend_refuted",
    "C145_positional_refuted",
    "C145_random",
    "C145_height_refuted"
   ],
   "note": "Proved for points as keyword and the three packages, whatever they find (C145_partial, C145_fail), with lines (C145_lines), for given triangles and matplotlib (C145_given_partial) and random points (C145_random). Given triangles and another package are an error (C145_given_refuted), an unknown package is accepted (C145_backend_refuted), positional points are ignored (C145_positional_refuted), random and regular points differ along the third axis (C145_height_refuted)."
  },
  {
   "property": "C146",
   "status": "partial",
   "theorems": [
    "C146_partial",
    "C146_to_mpl_partial",
    "C146_first",
    "C146_refuted",
    "C146_pyvista_refuted",
    "C146_to_mpl_refuted",
    "C146_unknown"
   ],
   "note": "Proved for objects of scipy and matplotlib: points and triangles (C146_partial, C146_first), triobj_to_mpl (C146_to_mpl_partial), other arguments (C146_unknown). triangulate does not transform (C146_refuted); the triangles of objects of pyvista are lost (C146_pyvista_refuted, C146_to_mpl_refuted)."
  },
  {
   "property": "C147",
   "status": "partial",
   "theorems": [
    "C147_partial",
    "C147_elevated",
    "C147_triangulated",
    "C147_failed",
    "C147_width",
    "C147_aliases_refuted",
    "C147_coords_topo_refuted",
    "C147_data_refuted",
    "C147_copy_refuted",
    "C147_tetrahedra"
   ],
   "note": "Proved: points and triangles (C147_partial), six nodes (C147_elevated), triangulations (C147_triangulated, C147_failed), widths (C147_width), tetrahedra (C147_tetrahedra). The documented names of the arguments, a database of points and cells and copies fail (C147_aliases_refuted, C147_coords_topo_refuted, C147_data_refuted, C147_copy_refuted)."
  },
  {
   "property": "C148",
   "status": "partial",
   "theorems": [
    "C148_partial",
    "C148_split",
    "C148_refuted"
   ],
   "note": "Proved for the plane of the first two coordinates (C148_partial), for both diagonals (C148_split). Upright cells of space get 0 (C148_refuted)."
  },
  {
   "property": "C149",
   "status": "partial",
   "theorems": [
    "C149_inverse",
    "C149_partial",
    "C149_id",
    "C149_classes",
    "C149_unknown",
    "C149_refuted",
    "C149_id_refuted",
    "C149_meshio_refuted"
   ],
   "note": "Proved for int and str (C149_inverse, C149_partial, C149_id, C149_classes, C149_unknown). Numbers of numpy are an error (C149_refuted), CellTypeId has no numbers (C149_id_refuted), meshio_to_vtk knows one type (C149_meshio_refuted)."
  },
  {
   "property": "C150",
   "status": "partial",
   "theorems": [
    "C150_T3",
    "C150_T6_partial",
    "C150_T6_refuted",
    "C150_nothing"
   ],
   "note": "Proved for three nodes (C150_T3), for six nodes from arrays (C150_T6_partial), without arguments (C150_nothing). Six nodes from a mesh are an error (C150_T6_refuted)."
  },
  {
   "property": "C151",
   "status": "partial",
   "theorems": [
    "C151_partial",
    "C151_width",
    "C151_activity_refuted",
    "C151_frames_refuted",
    "C151_other_refuted"
   ],
   "note": "Proved for fields of fitting lengths (C151_partial), unknown widths (C151_width). The activity of points is lost (C151_activity_refuted), frames given as a field are replaced (C151_frames_refuted), frames of another type are ignored (C151_other_refuted)."
  },
  {
   "property": "C152",
   "status": "partial",
   "theorems": [
    "C152_cells_partial",
    "C152_cells_refuted",
    "C152_refuted",
    "C152_again_refuted"
   ],
   "note": "Proved for databases of cells and dictionaries with entries (C152_cells_partial). Empty ones and those given to meshes are changed (C152_cells_refuted, C152_refuted); the next mesh gets the frames of the first or fails (C152_again_refuted)."
  },
  {
   "property": "C153",
   "status": "partial",
   "theorems": [
    "C153_partial",
    "C153_names_refuted",
    "C153_length_refuted",
    "C153_activity_refuted"
   ],
   "note": "Proved for arrays with a row for each cell, frames, areas and thicknesses (C153_partial). Names of attributes are not translated (C153_names_refuted), arrays of other lengths are an error (C153_length_refuted), activity that is no array is ignored (C153_activity_refuted)."
  },
  {
   "property": "C154",
   "status": "partial",
   "theorems": [
    "C154_partial",
    "C154_refuted",
    "C154_errors"
   ],
   "note": "Proved for data with two or three components (C154_partial). One number for every point is an AttributeError (C154_refuted)."
  },
  {
   "property": "C155",
   "status": "proved",
   "theorems": [
    "C155_plane",
    "C155_plane_alone",
    "C155_space",
    "C155_axis"
   ],
   "note": ""
  },
  {
   "property": "C156",
   "status": "partial",
   "theorems": [
    "C156_partial",
    "C156_nodes",
    "C156_tables",
    "C156_refuted",
    "C156_given_refuted"
   ],
   "note": "Proved for the classes a mesh takes by itself (C156_partial), numbers of nodes (C156_nodes), tables (C156_tables). L3, T6 and TET4 cells get classes of another dimension (C156_refuted); classes that are given are not checked (C156_given_refuted)."
  },
  {
   "property": "C157",
   "status": "partial",
   "theorems": [
    "C157_partial",
    "C157_error",
    "C157_name_2d",
    "C157_name_3d",
    "C157_shape_2d_refuted",
    "C157_shape_3d_refuted",
    "C157_order_refuted",
    "C157_start_refuted"
   ],
   "note": "Proved for points and cells (C157_partial), errors (C157_error), names (C157_name_2d, C157_name_3d). Shapes get classes by the number of nodes only (C157_shape_2d_refuted, C157_shape_3d_refuted), with nodes in another order (C157_order_refuted); starts other than zero give missing nodes (C157_start_refuted)."
  },
  {
   "property": "C158",
   "status": "partial",
   "theorems": [
    "C158_partial",
    "C158_class",
    "C158_invalid",
    "C158_number_refuted",
    "C158_field_refuted"
   ],
   "note": "Proved for arrays and ones (C158_partial), classes (C158_class) and invalid areas (C158_invalid). A number is an AttributeError (C158_number_refuted), a field is replaced by ones (C158_field_refuted)."
  },
  {
   "property": "C159",
   "status": "partial",
   "theorems": [
    "C159_partial",
    "C159_mesh",
    "C159_empty_refuted",
    "C159_positional_refuted"
   ],
   "note": "Proved for databases with rows (C159_partial) and meshes (C159_mesh). Without rows the array has no fields (C159_empty_refuted); positional arguments are a TypeError (C159_positional_refuted)."
  },
  {
   "property": "C160",
   "status": "partial",
   "theorems": [
    "C160_partial",
    "C160_unreadable",
    "C160_none_refuted"
   ],
   "note": "Proved for meshes (C160_partial) and inputs that are none (C160_unreadable). None gives an empty list (C160_none_refuted)."
  },
  {
   "property": "C161",
   "status": "partial",
   "theorems": [
    "C161_partial",
    "C161_image",
    "C161_integers_refuted",
    "C161_monomials",
    "C161_cell"
   ],
   "note": "Proved for floating coordinates (C161_partial), local and natural coordinates (C161_image), monomials (C161_monomials), cells (C161_cell). Integer coordinates give truncated centres (C161_integers_refuted)."
  },
  {
   "property": "C162",
   "status": "proved",
   "theorems": [
    "C162_given",
    "C162_wrong",
    "C162_corners_T6",
    "C162_corners_H27",
    "C162_corners_W18",
    "C162_edges",
    "C162_edges_given",
    "C162_edges_wrong",
    "C162_edges_refused"
   ],
   "note": "All functions that split cells, as a list; data that go with the cells are the subject of C13."
  }
 ]
}