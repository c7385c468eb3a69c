{"id": "C01", "title": "Cell counts at nodes are exact", "statement": "count_cells_at_nodes returns, for every node number used by the topology, the number of times that node is listed by the cells (the number of cells meeting at the node when no cell lists a node twice); the counts add up to the total number of entries of the topology, and the dictionary form has exactly the used node numbers as keys.", "quantifier": "every non-empty 2d or jagged topology with non-negative node numbers, regular or not", "why_tests_cant": "A unit test fixes a handful of small topologies; the claim ranges over every topology of every size, including ones with unused, repeated or widely spaced node numbers.", "anchors": ["src/polymesh/utils/topology/topo.py: count_cells_at_nodes, _count_cells_at_nodes_reg_np_, _count_cells_at_nodes_np_, _count_cells_at_nodes_reg_ak_"]}
{"id": "C02", "title": "Node-to-cell incidence is exact in every output format", "statement": "cells_at_nodes lists for every node exactly the cells that contain it, in increasing cell order, each paired with the local position the node has in that cell; the raw, 'dicts', 'csr' and 'jagged' formats describe the same incidence, and zero padding of the raw format never appears in the others.", "quantifier": "every topology (regular or not for 'dicts') and every output format", "why_tests_cant": "All formats are produced by different index arithmetic (padding, cumulative offsets); agreement on sampled meshes says nothing about other valence distributions.", "anchors": ["src/polymesh/utils/topology/topo.py: cells_at_nodes, _cells_at_nodes_reg_np_, _nodal_cell_data_to_dicts_, _nodal_cell_data_to_spdata_"]}
{"id": "C03", "title": "Nodal adjacency is the shares-a-cell relation", "statement": "nodal_adjacency maps every used node to the strictly increasing list of exactly those nodes that occur in a common cell with it; hence the relation is symmetric and every node is adjacent to itself. The jagged encoding lists the same neighbours.", "quantifier": "every topology, 2d or jagged", "why_tests_cant": "Symmetry and exactness are relational properties over all node pairs of all meshes.", "anchors": ["src/polymesh/utils/topology/topo.py: nodal_adjacency, _nodal_adjacency_as_dol_np_, _nodal_adjacency_as_dol_ak_, _subtopo_1d_, dol_to_jagged_data"]}
{"id": "C04", "title": "Regularity test decides tight zero-based numbering", "statement": "is_regular returns True exactly when the set of node numbers used by the topology is {0, 1, ..., m} for some m.", "quantifier": "every non-empty topology", "why_tests_cant": "The test compares a minimum and a cardinality; that these two numbers decide the set equality is a counting argument over all finite sets.", "anchors": ["src/polymesh/utils/topology/topo.py: is_regular"]}
{"id": "C05", "title": "Regularization is an order-preserving, invertible renumbering", "statement": "regularize returns a topology of the same shape that is regular together with the strictly increasing array of used node numbers, such that looking up the new numbers in that array gives back the original topology; the order of node numbers is preserved.", "quantifier": "every topology", "why_tests_cant": "Round trip for all node-number sets, sizes and orders.", "anchors": ["src/polymesh/utils/topology/topo.py: regularize"]}
{"id": "C06", "title": "Rewiring and rewiring back is the identity", "statement": "rewire(topo, imap) replaces every node number by its image and nothing else; rewire with invert=True undoes the renumbering given by a duplicate-free index array, in both directions, and fails on a node number missing from it.", "quantifier": "every topology and every duplicate-free index array", "why_tests_cant": "The inverse dictionary is built by a loop; invertibility is needed for every index array, and duplicates silently break it.", "anchors": ["src/polymesh/utils/topology/topo.py: rewire, remap_topo, remap_topo_1d, inds_to_invmap_as_dict, inds_to_invmap_as_array, arrays_to_imap_as_dict"]}
{"id": "C07", "title": "Detaching a submesh preserves its geometry and is tight", "statement": "detach / detach_mesh_bulk / detach_mesh_data_bulk return coordinates (and nodal data) and a topology such that node j of cell i has the same coordinates (data) as before, every returned point is used by some cell, no original point is returned twice, and the topology is regular.", "quantifier": "every coordinate array and every topology whose node numbers are within range", "why_tests_cant": "Geometry preservation must hold for every selection of cells of every mesh.", "anchors": ["src/polymesh/utils/topology/topo.py: detach, detach_mesh_bulk, detach_mesh_data_bulk, detach_mesh_jagged"]}
{"id": "C08", "title": "Detaching through global point ids", "statement": "When the coordinate array comes with global indices (PointCloud.inds or the argument inds) detach resolves node number g to the row whose global index is g, and the detached cell coordinates are those rows.", "quantifier": "every duplicate-free global index array and topology over it", "why_tests_cant": "Needs the composition of two renumberings for arbitrary index arrays.", "anchors": ["src/polymesh/utils/topology/topo.py: detach, rewire", "src/polymesh/space/pointcloud.py: PointCloud.__getitem__"]}
{"id": "C09", "title": "Unique edges and faces", "statement": "unique_topo_data returns a lexicographically strictly increasing list of sorted node tuples without duplicates, in which every edge or face of every cell occurs (up to the order of its nodes) at the returned ID; two edges or faces get the same ID exactly when they have the same nodes; every listed tuple comes from some cell.", "quantifier": "every 3d topology array", "why_tests_cant": "Sharing of IDs between arbitrary cells is what makes meshes conforming; tests only count edges of a few grids.", "anchors": ["src/polymesh/utils/topology/topo.py: unique_topo_data"]}
{"id": "C10", "title": "Documented reconstruction from unique edges", "statement": "Replacing every ID returned by unique_topo_data by the corresponding row reproduces the input array exactly (docstring example).", "quantifier": "every 3d topology array", "why_tests_cant": "The docstring claims equality for all inputs; it depends on the node order within every edge.", "anchors": ["src/polymesh/utils/topology/topo.py: unique_topo_data"]}
{"id": "C11", "title": "Topology queries do not modify their argument", "statement": "Calling count_cells_at_nodes, cells_at_nodes or regularize does not change the topology passed in, so repeating a query gives the same answer.", "quantifier": "every topology of every supported kind and every history of queries", "why_tests_cant": "Aliasing effects show up only in histories of calls on the same object.", "anchors": ["src/polymesh/utils/topology/topo.py: regularize, count_cells_at_nodes"]}
{"id": "C12", "title": "Cell subdivision indexing and composition", "statement": "transform_topology with an (nSub x n) path returns nE*nSub cells, sub-cell k of cell i being row i*nSub+k and consisting of the nodes of cell i selected by path row k, in this order; applying two paths one after the other equals applying compose_trmap of them once. Every schedule of the parallel loops gives this result.", "quantifier": "every topology, every path within range, every execution order of the parallel loops", "why_tests_cant": "Unbounded in number of cells, path shapes and in thread schedules.", "anchors": ["src/polymesh/utils/topology/tr.py: transform_topology, _transform_topology_, compose_trmap"]}
{"id": "C13", "title": "Data follows the cells when topology is transformed", "statement": "transform_topology(topo, path, data) attaches to every node of every sub-cell the value its parent cell had at the same node (nodal data), or the value of the parent cell (cell data); data of any other shape is rejected.", "quantifier": "every topology, path and data array", "why_tests_cant": "Consistency between two independently coded index maps for all shapes.", "anchors": ["src/polymesh/utils/topology/tr.py: transform_topology_data, repeat_cell_nodal_data"]}
{"id": "C14", "title": "Order elevation keeps the mesh and inserts midpoints conformingly", "statement": "T3_to_T6, Q4_to_Q8, Q4_to_Q9, TET4_to_TET10, H8_to_H27 and L2_to_L3 keep all points and the corner nodes of every cell, every new node of a cell lies at the mean of the corner nodes of the edge, face or cell it belongs to, cells sharing an edge or face share the new node, all node numbers are within range and every new point is used.", "quantifier": "every mesh of the given cell type whose node numbers are within range", "why_tests_cant": "Conformity concerns all pairs of cells in all meshes.", "anchors": ["src/polymesh/utils/topology/tr.py: L2_to_L3, T3_to_T6, Q4_to_Q8, Q4_to_Q9, TET4_to_TET10, H8_to_H27", "src/polymesh/utils/topodata.py", "src/polymesh/utils/tri.py: edges_tri"]}
{"id": "C15", "title": "Elevated cells match the reference numbering of the element", "statement": "Node k of a cell produced by order elevation is the image of the k-th local coordinate (lcoords) of the higher-order element under the linear interpolation of the parent cell.", "quantifier": "every mesh and every cell, all elevated element types", "why_tests_cant": "Relates three independently written tables (edge lists, shape functions, lcoords) for arbitrary corner coordinates.", "anchors": ["src/polymesh/utils/topology/tr.py: T3_to_T6, Q4_to_Q9, TET4_to_TET10, H8_to_H27, L2_to_L3", "src/polymesh/cells/*.py: lcoords"]}
{"id": "C16", "title": "Splitting 2d cells conserves area", "statement": "Q4_to_T3, T6_to_T3, Q9_to_Q4, Q8_to_T3 and Q9_to_T6 split every cell into pieces whose signed areas add up to the signed area of the polygon through the boundary nodes of the cell.", "quantifier": "every planar mesh, arbitrary node positions", "why_tests_cant": "An identity in all node coordinates.", "anchors": ["src/polymesh/utils/topology/tr.py: Q4_to_T3, T6_to_T3, Q9_to_Q4, Q8_to_T3, Q9_to_T6", "src/polymesh/polygon.py"]}
{"id": "C17", "title": "Splitting 3d cells conserves volume", "statement": "H8_to_TET4, W6_to_TET4, H27_to_H8, H27_to_TET10 and W18_to_W6 split every affine cell into pieces whose volumes add up to the volume of the cell and that all have the orientation of the parent.", "quantifier": "every mesh of affinely distorted cells", "why_tests_cant": "An identity in all affine maps.", "anchors": ["src/polymesh/utils/topology/tr.py: H8_to_TET4, W6_to_TET4, H27_to_H8, H27_to_TET10, W18_to_W6", "src/polymesh/polyhedron.py"]}
{"id": "C18", "title": "Splitting hexahedra into tetrahedra gives a conforming mesh", "statement": "After H8_to_TET4 two tetrahedra from neighbouring hexahedra share a whole triangular face or nothing on the common face of the hexahedra.", "quantifier": "every hexahedral mesh, in particular every grid", "why_tests_cant": "Needs the face diagonals of all pairs of neighbouring cells to match.", "anchors": ["src/polymesh/utils/topology/tr.py: H8_to_TET4"]}
{"id": "C19", "title": "Wedge elevation works for every wedge mesh", "statement": "W6_to_W18 accepts every wedge mesh and inserts the edge midpoints and quadrilateral face centres.", "quantifier": "every wedge mesh", "why_tests_cant": "The helper writes to an index that is out of bounds for every input; bounds checks are off in compiled code so a test may pass by accident.", "anchors": ["src/polymesh/utils/topology/tr.py: W6_to_W18", "src/polymesh/utils/topodata.py: faces_W6, edges_W6"]}
{"id": "C20", "title": "Edge extraction lists every edge once", "statement": "T3_to_L2, TET4_to_L2 and H8_to_L2 return each edge of the mesh exactly once and nothing else, and leave the coordinates unchanged.", "quantifier": "every mesh of the given type", "why_tests_cant": "Exactness and uniqueness over all meshes.", "anchors": ["src/polymesh/utils/topology/tr.py: T3_to_L2, TET4_to_L2, H8_to_L2", "src/polymesh/utils/topodata.py: edgeIds_T3, edgeIds_TET4, edgeIds_H8"]}
{"id": "C21", "title": "Grid numbering is complete and in range", "statement": "grid creates prod(shape) cells over prod(shape*(eshape-1)+1) points; all node numbers lie in [start, start+number of points), every point is used by some cell, no cell lists a node twice, and no write leaves the arrays.", "quantifier": "every shape >= 1, eshape >= 2 (tuple), start, in 2 and 3 dimensions", "why_tests_cant": "Unbounded sizes; out-of-range writes are silent in compiled code.", "anchors": ["src/polymesh/grid.py: grid, rgridMT, grid_2d_bins, grid_3d_bins"]}
{"id": "C22", "title": "Grid cells tile the box", "statement": "Cell (i, j, k) of a grid occupies exactly the box [i*dx, (i+1)*dx] x ... (shifted); its nodes are the regular sub-lattice of that box in row-major order; the measures of the cells add up to the size of the box.", "quantifier": "every size, shape, eshape and shift", "why_tests_cant": "Universally quantified geometry.", "anchors": ["src/polymesh/grid.py: rgridMT, grid_2d_bins, grid_3d_bins"]}
{"id": "C23", "title": "Grid generation is independent of the thread schedule", "statement": "The parallel loops of rgridMT write the same point from several cells; every execution order gives the same coordinates and topology as the sequential legacy code.", "quantifier": "every order in which the iterations of the parallel loops are executed, every grid", "why_tests_cant": "Schedules cannot be enumerated by tests.", "anchors": ["src/polymesh/grid.py: rgridMT, _rgridST"]}
{"id": "C24", "title": "Named grids follow the reference node order", "statement": "gridQ4, gridQ9, gridH8 and gridH27 return cells whose k-th node sits at the image of the k-th local coordinate (lcoords) of the element under the map from the reference cell to the box of the cell, so cells are positively oriented.", "quantifier": "every size, shape and shift, every cell", "why_tests_cant": "Relates permutation tables with reference coordinates for all grids.", "anchors": ["src/polymesh/grid.py: gridQ4, gridQ9, gridH8, gridH27", "src/polymesh/cells/q4.py, q9.py, h8.py, h27.py: lcoords"]}
{"id": "C25", "title": "Grids are conforming and free of duplicate points", "statement": "Two lattice positions of a grid have the same node number exactly when they are the same position, so neighbouring cells share exactly the nodes of their common face, and two different points of a grid with positive size never coincide.", "quantifier": "every pair of cells of every grid", "why_tests_cant": "Quantifies over all pairs of cells and nodes.", "anchors": ["src/polymesh/grid.py: rgridMT"]}
{"id": "C26", "title": "Grids from bins", "statement": "grid(bins=...) places cell (i, j, k) exactly on the intervals [b[i], b[i+1]] of the bins, including non-uniform ones, and gives the uniform grid for equally spaced bins.", "quantifier": "every pair or triple of bin arrays and every eshape", "why_tests_cant": "All bin arrays.", "anchors": ["src/polymesh/grid.py: grid_2d_bins, grid_3d_bins"]}
{"id": "C27", "title": "Optional arguments of grid are honoured", "statement": "grid can be called without eshape (linear cells are created) and the argument path reorders the nodes of the cells also for named cell types.", "quantifier": "every admissible argument combination", "why_tests_cant": "Argument combinations are rarely covered.", "anchors": ["src/polymesh/grid.py: grid"]}
{"id": "C28", "title": "Shape functions interpolate the nodes", "statement": "The shape functions of L2, T3, T6, Q4, Q9, TET4, H8 and H27 have value 1 at their own node of lcoords and 0 at all other nodes.", "quantifier": "every element type and node pair (finite) over exact arithmetic", "why_tests_cant": "Floating point tests check within tolerances only.", "anchors": ["src/polymesh/utils/cells/*.py: shp_*", "src/polymesh/cells/*.py: lcoords"]}
{"id": "C29", "title": "Shape functions form a partition of unity and reproduce linear fields", "statement": "At every local coordinate the shape functions add up to 1 and interpolate every linear field exactly.", "quantifier": "every point of the plane or space, every element type", "why_tests_cant": "Polynomial identities over all points.", "anchors": ["src/polymesh/utils/cells/*.py: shp_*"]}
{"id": "C30", "title": "Shape function derivatives are the derivatives", "statement": "dshp_* returns the partial derivatives of shp_* at every local coordinate; they add up to zero over the nodes.", "quantifier": "every point, every element type with closed formulas", "why_tests_cant": "Differentiation is a limit statement over all points.", "anchors": ["src/polymesh/utils/cells/*.py: dshp_*"]}
{"id": "C31", "title": "Shape function matrices interpolate vector fields", "statement": "shape_function_matrix_* times the vector of stacked nodal values is the interpolated vector for every number of degrees of freedom.", "quantifier": "every point, ndof and nodal values", "why_tests_cant": "All ndof and values.", "anchors": ["src/polymesh/utils/cells/*.py: shape_function_matrix_*"]}
{"id": "C32", "title": "Generated shape functions are the interpolation basis", "statement": "For elements without closed formulas the functions generated from lcoords and the monomial basis are the unique interpolation basis.", "quantifier": "every element with a unisolvent node set", "why_tests_cant": "Uniqueness over all polynomials.", "anchors": ["src/polymesh/cell.py: generate_class_functions", "src/polymesh/cells/l3.py, tet10.py, w6.py, w18.py: polybase, lcoords"]}
{"id": "C33", "title": "Quadrature rules integrate exactly", "statement": "The Gauss rules attached to triangles, tetrahedra and wedges integrate all polynomials up to their degree exactly; in particular the weights add up to the measure of the reference cell.", "quantifier": "every polynomial up to the degree of the rule", "why_tests_cant": "An infinite family of polynomials.", "anchors": ["src/polymesh/utils/cells/gauss.py"]}
{"id": "C34", "title": "Quadrature volumes are exact for affine cells", "statement": "areas/volumes computed by quadrature for T6, H8, H27, TET10, W6 and W18 cells equal the area or volume spanned by the edges for every affinely distorted cell.", "quantifier": "every affine map of the reference cell", "why_tests_cant": "All affine maps.", "anchors": ["src/polymesh/utils/cells/t6.py: areas_T6", "src/polymesh/utils/cells/h8.py: volumes_H8", "src/polymesh/utils/cells/h27.py: volumes_H27", "src/polymesh/utils/cells/utils.py: volumes"]}
{"id": "C35", "title": "Local centre is the centre of the reference cell", "statement": "lcenter of every element type is the mean of its corner local coordinates.", "quantifier": "every element type", "why_tests_cant": "Only a few element types are tested.", "anchors": ["src/polymesh/cells/*.py: lcenter, lcoords"]}
{"id": "C36", "title": "Triangle areas and their invariances", "statement": "area_tri and areas_tri of a planar triangle is the signed area: invariant under translation and cyclic rotation of the nodes, changing sign with orientation, zero exactly for collinear points; area_tri_bulk, area_tri_u and area_tri_u2 give the same number.", "quantifier": "every triangle", "why_tests_cant": "All coordinates.", "anchors": ["src/polymesh/utils/tri.py: area_tri, areas_tri, area_tri_bulk, area_tri_u, area_tri_u2"]}
{"id": "C37", "title": "Natural coordinates of triangles are inverse to interpolation", "statement": "glob_to_nat_tri returns barycentric coordinates: they add up to 1 and nat_to_glob_tri returns the point they came from.", "quantifier": "every non-degenerate triangle of either orientation and every point", "why_tests_cant": "All triangles of both orientations.", "anchors": ["src/polymesh/utils/tri.py: glob_to_nat_tri, nat_to_glob_tri, loc_to_nat_tri, nat_to_loc_tri"]}
{"id": "C38", "title": "Point location in triangles and tetrahedra", "statement": "The point-in-polygon tests report True exactly for the points of the closed cell (enlarged by the tolerance).", "quantifier": "every cell and every point", "why_tests_cant": "All points.", "anchors": ["src/polymesh/utils/tri.py: _pip_tri_bulk_, localize_points", "src/polymesh/utils/tet.py: _pip_tet_bulk_"]}
{"id": "C39", "title": "Tetrahedron volumes and natural coordinates", "statement": "vol_tet_bulk is the absolute volume of the tetrahedron (invariant under translation and node permutation); glob_to_nat_tet returns barycentric coordinates that add up to 1 and interpolate back to the point.", "quantifier": "every non-degenerate tetrahedron and point", "why_tests_cant": "All coordinates.", "anchors": ["src/polymesh/utils/tet.py: vol_tet, vol_tet_bulk, glob_to_nat_tet"]}
{"id": "C40", "title": "Nodal distribution factors add up to one", "statement": "For every node the distribution factors of the cells meeting there add up to 1, for dense and CSR topologies, and are proportional to the cell weights.", "quantifier": "every mesh without repeated nodes in a cell and all weights with non-zero nodal sums", "why_tests_cant": "All meshes and weights.", "anchors": ["src/polymesh/utils/utils.py: nodal_distribution_factors, _nodal_distribution_factors_dense_, _nodal_distribution_factors_csr_"]}
{"id": "C41", "title": "Distributing and collecting nodal data is conservative", "statement": "Distributing nodal data to cells with distribution factors and summing the pieces per node gives back the nodal data; collecting constant cell data gives the constant.", "quantifier": "every mesh, weights and data", "why_tests_cant": "All meshes and data arrays.", "anchors": ["src/polymesh/utils/utils.py: distribute_nodal_data_bulk, distribute_nodal_data_sparse, collect_nodal_data"]}
{"id": "C42", "title": "Exploding and decomposing a mesh", "statement": "explode_mesh gives every cell its own points with unchanged coordinates and data, all node numbers being used exactly once; decompose writes cell coordinates back so that decompose(cells_coords(coords, topo)) reproduces the coordinates of all used points, in every execution order.", "quantifier": "every mesh, every schedule", "why_tests_cant": "All meshes and schedules.", "anchors": ["src/polymesh/utils/utils.py: explode_mesh, explode_mesh_bulk, explode_mesh_data_bulk, decompose, cells_coords"]}
{"id": "C43", "title": "Centres, centralization and averages", "statement": "cell centres are the means of the node coordinates and equivariant under translation and node permutation; centralize moves the centre to the origin, is idempotent and keeps differences of points; avg_cell_data is the mean over the nodes of the cell.", "quantifier": "every point cloud and mesh", "why_tests_cant": "All coordinate arrays.", "anchors": ["src/polymesh/utils/utils.py: center_of_points, centralize, cell_center, cell_centers_bulk, _avg_cell_data_1d_bulk_"]}
{"id": "C44", "title": "Orientation tests", "statement": "is_cw is True exactly for polygons with negative signed area, is_ccw for the reversed polygon, both being invariant under translation and cyclic shifts of the points.", "quantifier": "every polygon with non-zero area", "why_tests_cant": "All polygons with any number of vertices.", "anchors": ["src/polymesh/utils/utils.py: is_cw, is_ccw"]}
{"id": "C45", "title": "Neighbourhood queries return exactly the points within reach", "statement": "points_around(points, r) lists for each point exactly the points closer than r (at most n_max of them).", "quantifier": "every point cloud, radius and n_max", "why_tests_cant": "All point clouds.", "anchors": ["src/polymesh/utils/utils.py: points_around, _cells_around_MT_, _cells_data_to_dict"]}
{"id": "C46", "title": "Hit search returns a hit cell under every schedule", "statement": "_find_first_hits_ returns for every point the first cell that contains it, independently of the execution order.", "quantifier": "every hit table and every execution order of the parallel loop", "why_tests_cant": "Schedules cannot be enumerated by tests.", "anchors": ["src/polymesh/utils/cells/utils.py: _find_first_hits_, _find_first_hits_knn_"]}
{"id": "C47", "title": "Extrusion of triangles into solids", "statement": "extrude_T3_TET4 and extrude_T3_W6 return meshes with the documented number of points and cells, node numbers in range, the three tetrahedra of each prism having equal signed volume A*h/(3*zres), so the total volume is A*h.", "quantifier": "every triangulation, height and number of layers >= 1", "why_tests_cant": "All triangulations and layer counts.", "anchors": ["src/polymesh/extrude.py: extrude_T3_TET4, extrude_T3_W6"]}
{"id": "C48", "title": "Extruded tetrahedra are conforming", "statement": "Tetrahedra from neighbouring prisms use the same diagonal on the common quadrilateral face.", "quantifier": "every triangulation", "why_tests_cant": "All pairs of neighbouring triangles in all triangulations.", "anchors": ["src/polymesh/extrude.py: extrude_T3_TET4"]}
{"id": "C49", "title": "Tiling merges matching boundary nodes", "statement": "tile2d repeats a cell nX x nY times, and afterwards no two points of the result coincide at the joints.", "quantifier": "every periodic cell and every nX, nY", "why_tests_cant": "Corner points only arise for nX, nY >= 2.", "anchors": ["src/polymesh/tile.py: tile2d"]}
{"id": "C50", "title": "Subdivision of line meshes", "statement": "mesh1d_uniform divides each 2-node line into N segments of equal length, keeps the original points and connects consecutive points; the numbers are in range and each new point belongs to one line.", "quantifier": "every line mesh and N >= 1", "why_tests_cant": "All meshes and N.", "anchors": ["src/polymesh/mesh1d.py: mesh1d_uniform, _mesh1d_uniform_"]}
{"id": "C51", "title": "Mesh-size control of the ribbed plate recipe", "statement": "The bins generated for ribbed_plate contain all requested positions, are increasing, and no interval is longer than lmax.", "quantifier": "every increasing list of positions and every lmax > 0", "why_tests_cant": "All inputs.", "anchors": ["src/polymesh/recipes.py: ribbed_plate (subdivide)"]}
{"id": "C52", "title": "Global point and cell ids are unique", "statement": "Ids handed out by the index manager and not recycled since are pairwise different, after every sequence of generate and recycle calls.", "quantifier": "every history of generate/recycle calls that recycles only live ids, each once", "why_tests_cant": "Histories are unbounded; the failure needs a specific sequence.", "anchors": ["src/polymesh/polydata.py: IndexManager.generate, IndexManager.recycle"]}
{"id": "C53", "title": "Adding and removing blocks keeps ids consistent", "statement": "After any sequence of adding and removing cell blocks, live cells have pairwise different global ids.", "quantifier": "every history of joining and leaving blocks", "why_tests_cant": "Histories are unbounded.", "anchors": ["src/polymesh/polydata.py: PolyData.__join_parent__, PolyData.__leave_parent__, IndexManager"]}
{"id": "C54", "title": "Cell types and index tables are self-consistent", "statement": "The faces and edges extracted from a topology are the outward oriented closed boundary of the cells and its sides, each once; the triangles and tetrahedra of a cell class are those of the splitting functions, and composed tables equal the composition of their parts; the faces enclose the volume of the cell wherever its nodes are.", "quantifier": "every topology, every position of the nodes, all element tables", "why_tests_cant": "Consistency across tables and files; all positions of the nodes.", "anchors": ["src/polymesh/utils/topodata.py", "src/polymesh/polyhedron.py", "src/polymesh/polygon.py"]}
{"id": "C55", "title": "Local frames are orthonormal", "statement": "frames_of_surfaces and frames_of_lines return right-handed orthonormal frames whose first axis points along the first edge / the line.", "quantifier": "every non-degenerate cell", "why_tests_cant": "All coordinates.", "anchors": ["src/polymesh/utils/space.py: frames_of_surfaces, frames_of_lines"]}
{"id": "C56", "title": "Planarity and collinearity tests", "statement": "is_planar and is_line return True for points in a common plane or on a common line.", "quantifier": "every point set", "why_tests_cant": "All point sets, including planes that do not pass through the origin.", "anchors": ["src/polymesh/utils/space.py: is_planar, is_line"]}
{"id": "C57", "title": "Nearest and furthest points", "statement": "index_of_closest_point and index_of_furthest_point return the first index attaining the minimal or maximal distance.", "quantifier": "every point cloud and target", "why_tests_cant": "All point clouds.", "anchors": ["src/polymesh/utils/space.py: index_of_closest_point, index_of_furthest_point"]}
{"id": "C58", "title": "Color codes round trip", "statement": "hex_to_rgb inverts rgb_to_hex for all channel values 0..255, and rgb_to_hex is injective.", "quantifier": "all 2^24 colors", "why_tests_cant": "Tests sample a few colors.", "anchors": ["src/polymesh/utils/colors.py: rgb_to_hex, hex_to_rgb"]}
{"id": "C59", "title": "Splitting a cell tiles it", "statement": "The tetrahedra made of a hexahedron by H8_to_TET4 and H27_to_TET10, the hexahedra made by H27_to_H8 and the wedges made by W18_to_W6 cover their cell, stay inside it and do not overlap.", "quantifier": "every affine cell, every point of space", "why_tests_cant": "Matching volumes do not exclude overlaps; all points of all cells are involved.", "anchors": ["src/polymesh/utils/topology/tr.py: H8_to_TET4, H27_to_TET10, H27_to_H8, W18_to_W6"]}
{"id": "C60", "title": "Splitting a wedge into tetrahedra tiles it", "statement": "The three tetrahedra made of a wedge by W6_to_TET4 (also used by Wedge.tetmap) cover the wedge and do not overlap.", "quantifier": "every affine wedge, every point of space", "why_tests_cant": "Tests only compare volumes, which add up although the tetrahedra overlap.", "anchors": ["src/polymesh/utils/topology/tr.py: W6_to_TET4", "src/polymesh/polyhedron.py: Wedge.tetmap"]}
{"id": "C61", "title": "The type of the evaluation points does not matter", "statement": "shape_function_values and shape_function_derivatives return the mathematical values whether the evaluation points are given as floating point numbers or as integers.", "quantifier": "every list of evaluation points, every element with built in formulas", "why_tests_cant": "Tests evaluate at floating point locations; the result array takes the type of the points.", "anchors": ["src/polymesh/cell.py: PolyCell.shape_function_values, PolyCell.shape_function_derivatives", "src/polymesh/utils/cells: shp_*_multi, dshp_*_multi"]}
{"id": "C62", "title": "Quadrature volumes are exact for curved cells", "statement": "areas/volumes computed by quadrature equal the integral of the Jacobian determinant of the isoparametric map for all positions of the nodes.", "quantifier": "every T6, H8, H27, TET10, W6, W18 cell", "why_tests_cant": "All positions of all nodes; tests use unit boxes, on which insufficient rules are exact.", "anchors": ["src/polymesh/utils/cells/t6.py: areas_T6", "src/polymesh/utils/cells/h8.py: volumes_H8", "src/polymesh/utils/cells/h27.py: volumes_H27", "src/polymesh/utils/cells/utils.py: volumes", "src/polymesh/cells/w6.py: W6.volumes", "src/polymesh/cells/tet10.py: TET10.volumes", "src/polymesh/cells/w18.py: W18.volumes"]}
{"id": "C63", "title": "Local to global transformation of cells", "statement": "PolyCell.loc_to_glob(x) returns, for every cell, the interpolated position of every local point, the same as points_of_cells(points=x).", "quantifier": "every mesh, every element type, every list of local points", "why_tests_cant": "All shapes of the shape function matrix; a test with the wrong number of points cannot tell an orientation error.", "anchors": ["src/polymesh/cell.py: PolyCell.loc_to_glob, PolyCell.points_of_cells", "src/polymesh/utils/cells/utils.py: _loc_to_glob_bulk_", "src/polymesh/utils/utils.py: pcoords_to_coords"]}
{"id": "C64", "title": "Global to local transformation of triangles", "statement": "glob_to_loc_tri is the inverse of loc_to_glob_tri.", "quantifier": "every non-degenerate triangle and every point", "why_tests_cant": "All triangles.", "anchors": ["src/polymesh/utils/tri.py: glob_to_loc_tri, loc_to_glob_tri"]}
{"id": "C65", "title": "Data approximation on triangulations", "statement": "approx_data_to_points returns for every position inside the triangulation the interpolated nodal data, in the order of the positions.", "quantifier": "every triangulation, every list of positions in any order", "why_tests_cant": "All orders of the positions relative to the triangles.", "anchors": ["src/polymesh/utils/tri.py: approx_data_to_points, localize_points"]}
{"id": "C66", "title": "Contraction of triangles", "statement": "offset_tri moves the nodes of every triangle towards its centre by the relative amount given, one number for all triangles or one number for each.", "quantifier": "every triangulation and all amounts", "why_tests_cant": "All triangulations, both forms of the argument.", "anchors": ["src/polymesh/utils/tri.py: offset_tri, _offset_tri_, offset_tri_uniform"]}
{"id": "C67", "title": "Local coordinates of triangles in space keep lengths", "statement": "tri_glob_to_loc returns coordinates in the plane of the triangle, with the same distances between the nodes.", "quantifier": "every non-degenerate triangle in space", "why_tests_cant": "All triangles; right angled ones do not show the error.", "anchors": ["src/polymesh/utils/tri.py: tri_glob_to_loc"]}
{"id": "C68", "title": "Radius of the inscribed circle", "statement": "inscribed_radius times half of the perimeter is the area of the triangle, in the plane and in space.", "quantifier": "every triangle", "why_tests_cant": "All triangles.", "anchors": ["src/polymesh/utils/tri.py: inscribed_radius, inscribed_radii"]}
{"id": "C69", "title": "Areas of polygonal cells and volumes of tetrahedral meshes", "statement": "areas() of T3, Q4 and Q9 cells in any plane of space is the area enclosed by the loop of the cell, areas() of T6 does not depend on the plane of the mesh, volumes() of TET4 is the volume of the tetrahedron.", "quantifier": "every mesh, every plane", "why_tests_cant": "All planes in space and all polygons.", "anchors": ["src/polymesh/cell.py: PolyCell2d.areas, PolyCell3d.volumes", "src/polymesh/cells/t6.py: T6.areas", "src/polymesh/polygon.py: trimap", "src/polymesh/utils/utils.py: points_of_cells"]}
{"id": "C70", "title": "Locating points in meshes of solids", "statement": "locate returns, for every point inside of the mesh, a cell that contains the point and the local coordinates of the point in that cell.", "quantifier": "every mesh of TET4, TET10, H8, H27, W6, W18 cells, every point", "why_tests_cant": "All meshes and points.", "anchors": ["src/polymesh/cell.py: PolyCell3d.locate, PolyCell3d.pip", "src/polymesh/utils/cells/utils.py: _ntet_to_loc_bulk_, _find_first_hits_", "src/polymesh/polyhedron.py: tetmap"]}
{"id": "C71", "title": "Lazy evaluation does not change point location", "statement": "pip and locate give the same answer with lazy=True (only the four nearest cells are considered) and lazy=False.", "quantifier": "every mesh, every point", "why_tests_cant": "All meshes, including graded ones, in which the nearest centres do not belong to the cell that contains the point.", "anchors": ["src/polymesh/cell.py: PolyCell3d.locate, PolyCell3d.pip", "src/polymesh/utils/tet.py: _pip_tet_bulk_knn_", "src/polymesh/utils/cells/utils.py: _find_first_hits_knn_"]}
{"id": "C72", "title": "Shape function matrix of the triangle", "statement": "shape_function_matrix_tri_loc returns the matrix that interpolates nodal vectors for any number of variables per node.", "quantifier": "every point, every number of variables", "why_tests_cant": "All numbers of variables.", "anchors": ["src/polymesh/utils/tri.py: shape_function_matrix_tri_loc"]}
{"id": "C73", "title": "Nearest neighbours and their maximal distance", "statement": "k_nearest_neighbours returns, for every position, the k nearest points, and none that is farther away than max_distance.", "quantifier": "every point cloud, every number of neighbours, every bound", "why_tests_cant": "All point clouds and bounds; the argument is silently dropped for current versions of scipy.", "anchors": ["src/polymesh/utils/knn.py: k_nearest_neighbours"]}
{"id": "C74", "title": "Locating points in plane meshes", "statement": "locate_tri_2d returns for every point of a triangulation a triangle that contains it and the local coordinates in that triangle; pip of planar cells tells which points are inside of some cell.", "quantifier": "every triangulation, every point", "why_tests_cant": "All triangulations, with either orientation of the triangles.", "anchors": ["src/polymesh/utils/locate.py: locate_tri_2d", "src/polymesh/cell.py: PolyCell2d.pip", "src/polymesh/utils/tri.py: glob_to_nat_tri"]}
{"id": "C75", "title": "Lengths of lines and points on lines", "statement": "lengths returns the distances of the ends of the lines, distances_of_points those of consecutive points; points_of_cells returns the points at the given ratios of the lines of the selected cells.", "quantifier": "every mesh of lines, every list of points and cells", "why_tests_cant": "All meshes, ranges and selections of cells.", "anchors": ["src/polymesh/utils/utils.py: lengths_of_lines, lengths_of_lines2, distances_of_points, pcoords_to_coords_1d", "src/polymesh/cell.py: PolyCell1d.lengths, PolyCell1d.points_of_cells"]}
{"id": "C76", "title": "Jacobian matrices are the derivatives of the position", "statement": "jacobian_matrix returns at each point the derivatives of the interpolated position by the local coordinates; its determinant for lines is the length of the tangent.", "quantifier": "every cell type, every cell, every point", "why_tests_cant": "All cells and all points of them; the derivative is a limit.", "anchors": ["src/polymesh/utils/utils.py: jacobian_matrix_bulk, jacobian_matrix_bulk_1d, jacobian_det_bulk_1d", "src/polymesh/cell.py: PolyCell.jacobian_matrix", "src/polymesh/line.py: Line.jacobian_matrix"]}
{"id": "C77", "title": "Local coordinates of planar cells", "statement": "The coordinates of the nodes of a planar cell in the frame at its centre give back the positions of the nodes, keep all distances and are counterclockwise.", "quantifier": "every planar cell in space, every number of nodes", "why_tests_cant": "All positions and orientations of cells in space.", "anchors": ["src/polymesh/utils/space.py: frames_of_surfaces", "src/polymesh/utils/utils.py: cell_center_bulk", "src/polymesh/utils/cells/utils.py: tr_cell_glob_to_loc_bulk"]}
{"id": "C78", "title": "Extruding triangle meshes", "statement": "TriMesh.extrude makes a tetrahedral mesh whose first layer is the planar mesh and whose volume is the area of the mesh times the height; meshes that are not planar are rejected.", "quantifier": "every planar triangle mesh in space, every height and number of layers", "why_tests_cant": "All planes, positions and triangulations.", "anchors": ["src/polymesh/trimesh.py: TriMesh.extrude", "src/polymesh/extrude.py: extrude_T3_TET4"]}
{"id": "C79", "title": "A ribbed plate fills its region", "statement": "ribbed_plate returns hexahedra that do not overlap, share the nodes they touch each other with, and fill exactly the plate and its ribs; no cell has a side longer than lmax.", "quantifier": "every size of plate and ribs, every eccentricity, every lmax, both orders", "why_tests_cant": "All sizes; the selection of cells depends on the order of the positions of the ribs and the faces of the plate.", "anchors": ["src/polymesh/recipes.py: ribbed_plate", "src/polymesh/grid.py: grid", "src/polymesh/utils/topology/topo.py: detach_mesh_bulk"]}
{"id": "C80", "title": "A tetrahedral ribbed plate fills its region and conforms", "statement": "With tetrahedralize=True ribbed_plate returns a conforming mesh of tetrahedra of positive volume that fills exactly the plate and its ribs.", "quantifier": "every size of plate and ribs, every eccentricity, every lmax, both orders", "why_tests_cant": "All sizes; overlaps and hanging edges cannot be seen from a sum of volumes.", "anchors": ["src/polymesh/recipes.py: ribbed_plate", "src/polymesh/utils/topology/tr.py: H8_to_TET4, H27_to_TET10"]}
{"id": "C81", "title": "A helix has the given parameters", "statement": "circular_helix returns a helix with the given radius a, pitch (2 pi b) and slope (a / b), for every admissible combination of the parameters.", "quantifier": "every combination of parameters, every parameter of the curve", "why_tests_cant": "All real parameters; combinations are easily forgotten.", "anchors": ["src/polymesh/recipes.py: circular_helix"]}
{"id": "C82", "title": "A voxelised cylinder approximates the cylinder", "statement": "The voxels made by voxelize_cylinder conform, have sides up to the given size, stay within half of a diagonal of the tube, and cover every point deeper in the tube than that.", "quantifier": "every radius, height and size of voxels", "why_tests_cant": "All radii and sizes; a statement about all points of space.", "anchors": ["src/polymesh/voxelize.py: voxelize_cylinder", "src/polymesh/recipes.py: cylinder"]}
{"id": "C83", "title": "Centred grids are centred", "statement": "grid(..., centralize=True) returns the grid whose bounding box has its centre at the origin, whatever the shift.", "quantifier": "every size, shape and cell type", "why_tests_cant": "All shapes; the code subtracts the average of the points, which has to be the centre of the box.", "anchors": ["src/polymesh/grid.py: grid"]}
{"id": "C84", "title": "A triangulation object covers the mesh", "statement": "TriMesh.to_triobj gives a triangulation with the orientation of the mesh that covers it without overlaps; triangles with six nodes are divided into four.", "quantifier": "every triangle mesh", "why_tests_cant": "All positions of the nodes; covering and overlaps are statements about all points of the plane.", "anchors": ["src/polymesh/trimesh.py: TriMesh.to_triobj", "src/polymesh/utils/topology/tr.py: T6_to_T3"]}
{"id": "C85", "title": "Meshes survive the export to VTK", "statement": "The array of cells given to VTK decodes to the topology and nothing else, and the nodes of every cell class are numbered as in the VTK cell type it names.", "quantifier": "every topology, every cell class with a VTK type", "why_tests_cant": "All topologies; the numbering is a relation between two tables and an external convention.", "anchors": ["src/polymesh/vtkutils.py: mesh_to_vtkdata", "src/polymesh/polygon.py: vtkCellType", "src/polymesh/polyhedron.py: vtkCellType"]}
{"id": "C86", "title": "A rectangle is triangulated with the given subdivisions", "statement": "triangulate(size, shape, origo) uses the points of a regular grid over the rectangle with the given number of subdivisions in both directions.", "quantifier": "every size, shape and origo", "why_tests_cant": "All shapes and sizes.", "anchors": ["src/polymesh/triang.py: triangulate"]}
{"id": "C87", "title": "Flipping reverses the orientation of cells", "statement": "flip returns the same cells with the opposite orientation; flipping twice gives the cells back.", "quantifier": "every topology of every cell class, every position of the nodes", "why_tests_cant": "All positions of the nodes; depends on the numbering of each class.", "anchors": ["src/polymesh/cell.py: PolyCell.flip"]}
{"id": "C88", "title": "Coordinates in other frames describe the same places", "statement": "PointCloud.show(target) and the setter of its frame give the coordinates of the same places of space in the target frame, with the axes and origins of both frames.", "quantifier": "every array of points, every orthonormal frame of the points and of the target, all origins", "why_tests_cant": "All frames; the difference of the origins has to be taken with the right axes.", "anchors": ["src/polymesh/space/pointcloud.py: PointCloud.show, PointCloud.frame, dcoords", "src/polymesh/space/frame.py: CartesianFrame.relative_origo"]}
{"id": "C89", "title": "Moving points and frames", "statement": "PointCloud.move and CartesianFrame.move move every point (the origin) by the vector given, in the frame given or the root frame; centralize moves the centre to the origin of the target along the given axes; moving a copy of a frame leaves the frame where it is.", "quantifier": "every array of points, frame, vector and choice of axes", "why_tests_cant": "All frames; errors appear only if the frames of points, vector and target differ.", "anchors": ["src/polymesh/space/pointcloud.py: PointCloud.move, PointCloud.centralize, PointCloud.center", "src/polymesh/space/frame.py: CartesianFrame.move, CartesianFrame.copy, CartesianFrame.origo"]}
{"id": "C90", "title": "Parts of point clouds know where they come from", "statement": "Indexing a point cloud gives the points of the key together with their indices in the original array, for every chain of keys; sort_indices keeps the pairs of points and indices.", "quantifier": "every array, every chain of slices, lists, masks and single indices", "why_tests_cant": "All keys and chains of keys.", "anchors": ["src/polymesh/space/pointcloud.py: PointCloud.__getitem__, PointCloud.sort_indices, PointCloud.idsort"]}
{"id": "C91", "title": "The standard form of a mesh is the same mesh", "statement": "PolyData.to_standard_form gathers all points at the root and numbers points and cells consecutively; every node of every cell stays at its place in space, and all fields are kept, with the default values where a block lacks a field.", "quantifier": "every tree of blocks, all frames, points, cells and fields", "why_tests_cant": "All trees; indices, frames and fields of all blocks are rearranged together.", "anchors": ["src/polymesh/polydata.py: PolyData.to_standard_form, PolyData.rewire, IndexManager.generate_np", "src/polymesh/pointdata.py: PointData"]}
{"id": "C92", "title": "Coordinates and centres of a mesh", "statement": "PolyData.coords and PolyData.points give the places of all points of the mesh, seen from the target; a new mesh has the coordinates it was given, in the frame given; PolyData.centers gives the means of the nodes of every cell, seen from the target.", "quantifier": "every tree of blocks, all frames and targets", "why_tests_cant": "All frames; errors appear only if the frames differ from the standard one.", "anchors": ["src/polymesh/polydata.py: PolyData.points, PolyData.coords, PolyData.centers, PolyData.__init__", "src/polymesh/pointdata.py: PointData.__init__"]}
{"id": "C93", "title": "A copy of a mesh is equal to it", "statement": "copy and deepcopy of a mesh give a mesh with the same blocks, frames and fields, and with its cells at the same places.", "quantifier": "every tree of blocks, all frames, points, cells and fields", "why_tests_cant": "All trees; frames, numbers of points and of cells are made anew.", "anchors": ["src/polymesh/polydata.py: PolyData.__copy__, PolyData.__init__", "src/polymesh/pointdata.py: PointData.__copy__"]}
{"id": "C94", "title": "Moving and centring a mesh or a part of it", "statement": "PolyData.move moves the points of a block, and only these, by the given vector; center gives the mean of its points; centralize moves the centre to the origin of the target along the given axes.", "quantifier": "every tree of blocks, every block of it, all frames, vectors and choices of axes", "why_tests_cant": "All trees and blocks; blocks with and without points take different branches.", "anchors": ["src/polymesh/polydata.py: PolyData.move, PolyData.center, PolyData.centralize, PolyData.source"]}
{"id": "C95", "title": "Merging the numbers of nodes keeps the mesh", "statement": "PolyData.nummrg removes the points that no cell uses and renumbers the others consecutively; the cells stay where they are.", "quantifier": "every tree of blocks", "why_tests_cant": "All trees; the cells of all blocks have to be renumbered exactly once.", "anchors": ["src/polymesh/polydata.py: PolyData.nummrg, PolyData.rewire"]}
{"id": "C96", "title": "Detaching a part of a mesh", "statement": "PolyData.detach returns a mesh of its own with the cells of the block at the same places; the mesh it was taken from is not changed.", "quantifier": "every tree of blocks, every block of it", "why_tests_cant": "All trees and blocks.", "anchors": ["src/polymesh/polydata.py: PolyData.detach, PolyData.source"]}
{"id": "C97", "title": "Reading tetrahedra from an Abaqus input file", "statement": "readInpFile returns the nodes of all parts and, for every block of elements of type C3D4, the triangles that are the faces of its tetrahedra; labels refer to the nodes of the same part; other keywords are ignored.", "quantifier": "every file that is written by the rules for keyword and data lines, any number of parts and blocks", "why_tests_cant": "All files; a file with other labels is read without a message.", "anchors": ["src/polymesh/io/inp2stl.py: readInpFile"]}
{"id": "C98", "title": "STL files of the surface of tetrahedra", "statement": "inp2stl writes one file for every block of tetrahedra, with the triangles of the surface and unit normals that point out of the solid; the files have different names with the names of the sets; the box that is printed is the smallest one around the triangles.", "quantifier": "every readable file, every set of solids, both values of the option", "why_tests_cant": "All solids; whether normals point out depends on the sense of every tetrahedron.", "anchors": ["src/polymesh/io/inp2stl.py: writeStlFile, computeNormal, getMeshBBox, getBBox, the main program"]}
{"id": "C99", "title": "Bounds of clouds and meshes", "statement": "PointCloud.bounds and PolyData.bounds return, for each of the three directions of the target, the least and the greatest coordinate of the points.", "quantifier": "every cloud and every tree of blocks, every frame, every target", "why_tests_cant": "All frames and trees; the points of a mesh come from several blocks in different frames.", "anchors": ["src/polymesh/space/pointcloud.py: PointCloud.bounds", "src/polymesh/polydata.py: PolyData.bounds"]}
{"id": "C100", "title": "Closest and furthest points and cells", "statement": "closest and furthest (and index_of_closest, index_of_furthest) return the point of the cloud that is closest to, or furthest from, the given position, with its index; for several positions one for each. index_of_closest_point, index_of_furthest_point, index_of_closest_cell and index_of_furthest_cell do the same for the points and the centres of the cells of a mesh.", "quantifier": "every cloud with or without indices, every tree of blocks, all positions, given as arrays, vectors or clouds in any frame", "why_tests_cant": "All clouds and positions; ties and frames decide the answer.", "anchors": ["src/polymesh/space/pointcloud.py: PointCloud.index_of_closest, index_of_furthest, closest, furthest", "src/polymesh/polydata.py: PolyData.index_of_closest_point, index_of_furthest_point, index_of_closest_cell, index_of_furthest_cell"]}
{"id": "C101", "title": "The blocks of cells", "statement": "blocks_of_cells maps every cell (or the given ones) to the block it belongs to, with or without mappers made by lock; cell_indices lists the numbers of the cells, number_of_cells their number.", "quantifier": "every tree of blocks, every set of cells, any state of the mappers", "why_tests_cant": "All trees and histories of locking.", "anchors": ["src/polymesh/polydata.py: PolyData.blocks_of_cells, lock, unlock, cell_indices, number_of_cells"]}
{"id": "C102", "title": "Points and coordinates of the cells of a part", "statement": "points_from_cells returns each point used by the cells of a block once, with its number; cells_coords returns the coordinates of the nodes of every cell; number_of_points is the number of points.", "quantifier": "every tree of blocks, every block of it", "why_tests_cant": "All trees; blocks may have points of their own.", "anchors": ["src/polymesh/polydata.py: PolyData.points (from_cells), cells_coords, number_of_points, centers"]}
{"id": "C103", "title": "The surface of a mesh", "statement": "PolyData.surface returns a mesh of triangles with the points of the mesh, whose triangles are the faces that belong to one cell only, at their places.", "quantifier": "every tree of blocks with solid cells, every frame, every surface found by the tool", "why_tests_cant": "All meshes; faces between blocks and points at the same place need other treatment.", "anchors": ["src/polymesh/polydata.py: PolyData.surface", "src/polymesh/cell.py: PolyCell.extract_surface, source_coords"]}
{"id": "C104", "title": "Nets of lines between near points", "statement": "knngridL2 joins every point to its k nearest points by lines, each once, not to itself, keeps all points, and makes no line longer than max_distance.", "quantifier": "all points in any dimension, every k, every distance, every answer of the search tree that is right", "why_tests_cant": "All sets of points; points at the same distance leave the tree a choice.", "anchors": ["src/polymesh/grid.py: knngridL2", "src/polymesh/utils/knn.py: k_nearest_neighbours, knn_to_lines"]}
{"id": "C105", "title": "Edges of a mesh of triangles", "statement": "TriMesh.edges lists each side of the triangles once, also if several triangles share it, and with return_cells the numbers of the sides of each triangle, from which the triangles can be made again.", "quantifier": "every mesh of triangles with three or six nodes", "why_tests_cant": "All meshes; the numbering of sides by their nodes has to be right for every pair of triangles.", "anchors": ["src/polymesh/trimesh.py: TriMesh.edges", "src/polymesh/utils/tri.py: edges_tri", "src/polymesh/utils/topology/topo.py: unique_topo_data"]}
{"id": "C106", "title": "Topology arrays", "statement": "TopologyArray of any number of arrays holds the rows of all of them in order; of one array and lengths, the parts of the array of these lengths; np.vstack appends, np.unique lists the used nodes; a list of lists gives its rows.", "quantifier": "arrays of any number, shape and content, all lengths", "why_tests_cant": "All combinations of shapes.", "anchors": ["src/polymesh/topoarray.py: TopologyArray.__init__, unique, vstack"]}
{"id": "C107", "title": "Cells and neighbours of the nodes of a mesh", "statement": "PolyData.topology lists the cells of all blocks; cells_at_nodes gives for each node the cells that have it, and nodal_adjacency the nodes that share a cell with it, for cells of different kinds as well.", "quantifier": "every tree of blocks with cells of any numbers of nodes, every format", "why_tests_cant": "All trees and shapes of cells.", "anchors": ["src/polymesh/polydata.py: PolyData.topology, cells_at_nodes, nodal_adjacency", "src/polymesh/topoarray.py: TopologyArray", "src/polymesh/utils/topology/topo.py: cells_at_nodes, nodal_adjacency"]}
{"id": "C108", "title": "Nodal distribution factors of a mesh", "statement": "PolyData.nodal_distribution_factors divides the weight of each node between the cells of all blocks that have it in proportion to their volumes, given weights, or equally; CellData.set_nodal_distribution_factors stores the part of a block.", "quantifier": "every tree of blocks with cells of any numbers of nodes, all positive volumes or weights", "why_tests_cant": "All trees and all real weights; sums over cells of different kinds.", "anchors": ["src/polymesh/polydata.py: PolyData.nodal_distribution_factors, volumes", "src/polymesh/celldata.py: CellData.set_nodal_distribution_factors"]}
{"id": "C109", "title": "Areas and volumes of a mesh", "statement": "PolyData.volumes lists the volumes of all cells and PolyData.areas the areas of the surface cells in order of the blocks, so their sums are the volume and the area of the mesh; lines have volumes by their cross sections, surfaces by their thickness.", "quantifier": "every tree of blocks, all areas, thicknesses and lengths", "why_tests_cant": "All combinations of kinds of cells.", "anchors": ["src/polymesh/polydata.py: PolyData.areas, area, volumes, volume", "src/polymesh/cell.py: PolyCell1d.areas, PolyCell1d.volumes, PolyCell2d.thickness, PolyCell2d.volumes"]}
{"id": "C110", "title": "Triangulated disks", "statement": "circular_disk returns a mesh of triangles that fills the ring between the polygons on its inner and outer circle: its points are between the circles, no triangle is in the hole, none is missing outside of it.", "quantifier": "every number of angles and of radii, all radii, every triangulation of the points", "why_tests_cant": "All numbers and radii; the triangles are told from those of the hole by their centres.", "anchors": ["src/polymesh/recipes.py: circular_disk", "src/polymesh/utils/topology/topo.py: detach_mesh_bulk"]}
{"id": "C111", "title": "Cylinders", "statement": "cylinder returns layers of tetrahedra that fill the cylinder with the given radii, angle and height, with the given numbers of angular, radial and vertical divisions.", "quantifier": "all radii, heights and numbers of divisions", "why_tests_cant": "All real dimensions and all numbers.", "anchors": ["src/polymesh/recipes.py: cylinder", "src/polymesh/extrude.py: extrude_T3_TET4"]}
{"id": "C112", "title": "Cubes with a hole", "statement": "perforated_cube returns a mesh that fills a cube with a circular hole along the third axis, of wedges or tetrahedra of the first or second order, with edges about lmax.", "quantifier": "all dimensions, radii and lmax, every triangulation of the points", "why_tests_cant": "All real dimensions; the points and layers depend on quotients rounded down.", "anchors": ["src/polymesh/recipes.py: perforated_cube", "src/polymesh/extrude.py: extrude_T3_W6, extrude_T3_TET4", "src/polymesh/utils/topology/tr.py: W6_to_W18, TET4_to_TET10"]}
{"id": "C113", "title": "Import of meshes of meshio and pyvista", "statement": "PolyData.from_meshio and PolyData.from_pv keep the points and all cells: each block of cells becomes a block of the class registered for its type, with the same nodes and a frame for each cell; types that are not supported are reported.", "quantifier": "every registry, every list of blocks of any types, all positions", "why_tests_cant": "All sequences of blocks, including several of the same type and types that are not supported.", "anchors": ["src/polymesh/polydata.py: PolyData.from_meshio, PolyData.from_pv", "src/polymesh/celldata.py: CellData.frames", "src/polymesh/utils/space.py: frames_of_lines, frames_of_surfaces"]}
{"id": "C114", "title": "Export of points and cells as records", "statement": "PolyData.to_lists (and to_ak, to_dataframe, to_parquet, which call it) return the records of all points and of all cells in order of the blocks, with all fields or with those asked for.", "quantifier": "every number of blocks with any fields and lengths", "why_tests_cant": "All combinations of blocks and fields, including meshes without cells.", "anchors": ["src/polymesh/polydata.py: PolyData.to_lists, to_ak, to_dataframe, to_parquet"]}
{"id": "C115", "title": "Selection of fields of a wrapped database", "statement": "AkWrapper.to_dict and to_list return the fields that are asked for as arguments or as a collection, all of them if none is asked for, and report unknown ones; the arguments are left unchanged.", "quantifier": "every database, all sequences of names, sequences of calls with the same argument", "why_tests_cant": "All databases and selections; the effects on arguments show only in later calls.", "anchors": ["src/polymesh/akwrap.py: AkWrapper.__init__, to_dict, to_list, to_akrecord, to_akarray"]}
{"id": "C116", "title": "Registry of cell types and names of fields", "statement": "The metaclass of the data classes registers each class with a VTK number so that the most derived class is used, and merges the names of the fields so that a class extends or overrides those of its bases.", "quantifier": "every sequence of class statements", "why_tests_cant": "All sequences of definitions and of overrides.", "anchors": ["src/polymesh/abcdata.py: ABCMeta_MeshData", "src/polymesh/helpers.py: vtk_to_celltype, meshio_to_celltype"]}
{"id": "C117", "title": "Conversion to VTK", "statement": "PolyData.to_vtk returns one grid for each block with cells: the cells are those of the block, at the places where the mesh has them, each cell is shown once, and a grid has no points but those of its cells.", "quantifier": "every tree of blocks, frames and sources of points, all cells", "why_tests_cant": "All shapes of trees, including nested blocks of cells and meshes without cells.", "anchors": ["src/polymesh/polydata.py: PolyData._detach_block_data_, PolyData.to_vtk", "src/polymesh/vtkutils.py: mesh_to_vtkdata, mesh_to_UnstructuredGrid", "src/polymesh/utils/topology/topo.py: detach_mesh_bulk"]}
{"id": "C118", "title": "Data shown with a mesh", "statement": "PolyData.to_pv shows a field of the points at the points, a field of the cells at the cells and a field of the nodes of the cells at these, with the values that the mesh has there, whether grids or a collection of them are returned.", "quantifier": "every tree of blocks, all fields of points and cells", "why_tests_cant": "All numbers of points and cells: the kind of a field is guessed from its length.", "anchors": ["src/polymesh/polydata.py: PolyData._detach_block_data_, PolyData._has_plot_scalars_, PolyData.to_pv", "src/polymesh/utils/topology/topo.py: detach_mesh_data_bulk", "src/polymesh/utils/utils.py: explode_mesh_data_bulk"]}
{"id": "C119", "title": "Objects of k3d", "statement": "PolyData.to_k3d draws the lines and surfaces of all blocks at the places where the mesh has them, with the data of their points.", "quantifier": "every tree of blocks, frames and sources of points", "why_tests_cant": "All positions of points and cells in the tree.", "anchors": ["src/polymesh/polydata.py: PolyData.to_k3d"]}
{"id": "C120", "title": "Parameters of plots", "statement": "PolyData.pvplot uses for each block the configuration of the closest of itself and its ancestors that has one; plotting does not change the configurations.", "quantifier": "every assignment of configurations to blocks, all sequences of blocks and plots", "why_tests_cant": "Effects on stored configurations show only in later plots or other blocks.", "anchors": ["src/polymesh/polydata.py: PolyData.pvplot"]}
{"id": "C121", "title": "Names of the fields of a mesh", "statement": "PolyData.point_fields and PolyData.cell_fields return the names of all fields of the points (cells) of the mesh, each once.", "quantifier": "every tree of blocks with any fields", "why_tests_cant": "All trees and all numbers of fields.", "anchors": ["src/polymesh/polydata.py: PolyData.point_fields, PolyData.cell_fields"]}
{"id": "C122", "title": "Neighbours of cells", "statement": "PolyData.k_nearest_cell_neighbours returns for each cell the k cells that are closest to it, within the greatest distance if one is given; PolyData.cells_around_cells returns the cells whose centres are within the radius.", "quantifier": "every mesh with points at its root in any frame, all numbers of neighbours and radii", "why_tests_cant": "All positions of cells, numbers of neighbours and radii.", "anchors": ["src/polymesh/polydata.py: PolyData.k_nearest_cell_neighbours, PolyData.cells_around_cells, PolyData.centers", "src/polymesh/utils/utils.py: cells_around", "src/polymesh/utils/knn.py: k_nearest_neighbours"]}
{"id": "C123", "title": "Points of cells", "statement": "PolyCell.points_of_cells returns the nodes of the cells whose indices are given (of all cells by default), or for positions in the cells, the points of space at these positions.", "quantifier": "every block with any indices of cells, every selection, any number of positions", "why_tests_cant": "All selections, numbers of positions and indices; three positions and blocks that do not start with cell 0 are special.", "anchors": ["src/polymesh/cell.py: PolyCell.points_of_cells", "src/polymesh/utils/utils.py: pcoords_to_coords, points_of_cells"]}
{"id": "C124", "title": "Local coordinates of cells", "statement": "PolyCell.local_coordinates returns the coordinates of the nodes for the axes of the cells (or of a target frame) through the centres of the cells; distances are kept; for surfaces two coordinates are enough.", "quantifier": "all cells in space, all cartesian frames", "why_tests_cant": "All positions of nodes and all frames.", "anchors": ["src/polymesh/cell.py: PolyCell.local_coordinates, PolyCell2d.local_coordinates", "src/polymesh/utils/utils.py: points_of_cells, _cells_coords_tr_, _centralize_cells_coords_"]}
{"id": "C125", "title": "Determinants of the Jacobian", "statement": "PolyCell.jacobian returns, given derivatives of the shape functions, the determinants of the derivatives of the map from the reference cell to the cell in space: the local ratio of volumes, for surfaces of areas, for lines of lengths.", "quantifier": "all cells, all right-handed frames, any number of points, any shape functions with a sum of one", "why_tests_cant": "All geometries, frames and points; independence of the frames is a statement about pairs of runs.", "anchors": ["src/polymesh/cell.py: PolyCell.jacobian_matrix, PolyCell.jacobian, PolyCell.local_coordinates", "src/polymesh/line.py: Line.jacobian, Line.jacobian_matrix", "src/polymesh/utils/utils.py: jacobian_matrix_bulk, jacobian_det_bulk_1d"]}
{"id": "C126", "title": "Points involved in a block and simplices", "statement": "PolyCell.unique_indices returns the nodes of the cells, each once; points_involved their coordinates; detach_points_cells the same points with a topology that refers to them; to_simplices the block divided into simplices of its dimension.", "quantifier": "every topology, every array of points", "why_tests_cant": "All topologies with gaps and repeated nodes.", "anchors": ["src/polymesh/cell.py: PolyCell.unique_indices, PolyCell.points_involved, PolyCell.detach_points_cells, PolyCell.to_simplices", "src/polymesh/utils/topology/topo.py: detach_mesh_bulk"]}
{"id": "C127", "title": "Rotation of point clouds", "statement": "PointCloud.rotate turns the points about the origin of their frame: afterwards they have, in the rotated frame, the coordinates they had before; distances are kept, and the opposite rotation restores the points.", "quantifier": "every cloud, every frame of perpendicular unit vectors, every rotation", "why_tests_cant": "All frames and rotations; a rotation by nothing is wrong only for frames whose axes are not those of space, which tests do not use.", "anchors": ["src/polymesh/space/pointcloud.py: PointCloud.rotate"]}
{"id": "C128", "title": "Rotation of meshes", "statement": "PolyData.rotate turns the nodes of the cells of a block about the origin of its frame and leaves all other nodes of the mesh where they are.", "quantifier": "every tree of blocks, every block in it, every frame, every rotation", "why_tests_cant": "All trees, in which the points belong to the block or to a block above it, and all frames.", "anchors": ["src/polymesh/polydata.py: PolyData.rotate, PolyData.source, PolyData.points, PolyData.frame"]}
{"id": "C129", "title": "Spinning meshes about their centres", "statement": "PolyData.spin turns the nodes of the cells of a block about the mean of its points; the mean stays where it is.", "quantifier": "every tree of blocks, every frame, every rotation", "why_tests_cant": "All frames; the result is wrong only if the frame has another origin than space.", "anchors": ["src/polymesh/polydata.py: PolyData.spin", "src/polymesh/space/pointcloud.py: PointCloud.center, PointCloud.centralize, PointCloud.rotate, PointCloud.move"]}
{"id": "C130", "title": "Rotation of the frames of cells", "statement": "When a mesh is rotated, the frames of its cells are turned by the same rotation.", "quantifier": "all frames of cells, all rotations", "why_tests_cant": "All pairs of frames and rotations; the two differ unless the rotations can be exchanged.", "anchors": ["src/polymesh/polydata.py: PolyData._rotate_attached_cells_", "src/polymesh/cell.py: PolyCell._rotate_"]}
{"id": "C131", "title": "Cells find the points of their mesh", "statement": "The cells of a mesh take their coordinates from the points of the closest block above them that has points, in new meshes and after blocks are added to or taken from them, wherever these points are moved later.", "quantifier": "every tree of blocks, every block in it, every block that joins", "why_tests_cant": "All trees and histories of joining and leaving; tests build a mesh once and do not look at which object cells refer to.", "anchors": ["src/polymesh/polydata.py: PolyData.__init__, PolyData.__join_parent__, PolyData.__leave_parent__, PolyData.source", "src/polymesh/cell.py: PolyCell.source_coords"]}
{"id": "C132", "title": "Copies of meshes", "statement": "A copy of a mesh has the same blocks, points and cells; the cells of the copy take their coordinates from its points, and moving the copy does not move the original.", "quantifier": "every tree of blocks, shallow and deep copies", "why_tests_cant": "All trees; what the cells of a copy refer to is seen only after the copy is changed.", "anchors": ["src/polymesh/polydata.py: PolyData.__copy__, PolyData.__deepcopy__", "src/polymesh/celldata.py: CellData.__copy__", "src/polymesh/pointdata.py: PointData.__copy__"]}
{"id": "C133", "title": "Renumbering and detaching keep the corners of cells", "statement": "After nummrg, to_standard_form and detach, each cell finds the corners it had before, and a detached mesh is independent of the original.", "quantifier": "every mesh and every numbering; every tree of blocks", "why_tests_cant": "All meshes; the old and the new points agree if no point is unused, as in tests.", "anchors": ["src/polymesh/polydata.py: PolyData.nummrg, PolyData.to_standard_form, PolyData.detach", "src/polymesh/cell.py: PolyCell.source_coords"]}
{"id": "C134", "title": "Limits for the mesh of a section", "statement": "The elements of the mesh generate_mesh asks for respect the greatest edge length, the greatest area and the greatest number of elements that are given.", "quantifier": "every section, every value of the limits, every mesh of elements of the calculated size", "why_tests_cant": "All meshes a mesh generator could return for the size; a test sees one, in which the limits may hold by chance.", "anchors": ["src/polymesh/section.py: generate_mesh"]}
{"id": "C135", "title": "Sections made from parameters", "statement": "get_section and LineSection make a section of the given shape with the given parameters, and a mesh as fine as its least thickness unless limits are given.", "quantifier": "every supported shape, all parameters", "why_tests_cant": "All shapes and parameters; tests use one circle and the type of the numbers they happen to write.", "anchors": ["src/polymesh/section.py: get_section, LineSection.__init__"]}
{"id": "C136", "title": "The mesh of a section", "statement": "LineSection.trimesh gives triangles that are the triangles of the section, or four pieces of each, moved so that the section is centred at the origin.", "quantifier": "every mesh of triangles with six nodes", "why_tests_cant": "All meshes; that pieces fill their triangle is a statement about all points.", "anchors": ["src/polymesh/section.py: LineSection.coords, LineSection.topology, LineSection.trimesh"]}
{"id": "C137", "title": "Extruded sections", "statement": "LineSection.extrude gives a mesh of tetrahedra whose volume is the area of the section times the length.", "quantifier": "every mesh of triangles with six nodes, every length and number of layers", "why_tests_cant": "All meshes and numbers of layers.", "anchors": ["src/polymesh/section.py: LineSection.extrude", "src/polymesh/trimesh.py: TriMesh.extrude"]}
{"id": "C138", "title": "Properties of a section", "statement": "The area, the second moments and the polar moment of a section are what the library calculates, whatever has been called before.", "quantifier": "every sequence of calls", "why_tests_cant": "All sequences of calls; tests calculate once.", "anchors": ["src/polymesh/section.py: LineSection.A, Ix, Iy, Iz, geometric_properties, calculate_section_properties, get_section_properties"]}
{"id": "C139", "title": "Functions of element classes do not depend on what was called before", "statement": "shape_function_values, shape_function_derivatives and shape_function_matrix of an element class give the same for the same arguments, whether generate_class_functions and the other methods have been called before or not.", "quantifier": "every class, every sequence of calls, all points", "why_tests_cant": "All sequences of calls; a test sees the state the tests before it have left, and once the functions have been generated it compares them with themselves.", "anchors": ["src/polymesh/cell.py: PolyCell.generate_class_functions, shape_function_values, shape_function_derivatives, shape_function_matrix"]}
{"id": "C140", "title": "Functions of element classes at one point", "statement": "At one point the functions of an element class give what they give for an array of one point, without the first dimension.", "quantifier": "every class, every point", "why_tests_cant": "All classes and points; tests use arrays of several points.", "anchors": ["src/polymesh/cell.py: PolyCell.shape_function_values, shape_function_derivatives, shape_function_matrix"]}
{"id": "C141", "title": "Local coordinates from monomials", "statement": "_glob_to_loc_bulk_ and _glob_to_loc_bulk_2_ give the local coordinates of points in cells: the interpolation with the shape functions of the cell takes them back to the points.", "quantifier": "every class in three dimensions, all cells and points", "why_tests_cant": "All cells and all points; for boxes the result is right.", "anchors": ["src/polymesh/utils/cells/utils.py: _glob_to_loc_bulk_, _glob_to_loc_bulk_2_", "src/polymesh/utils/cells/h8.py: monoms_H8", "src/polymesh/utils/cells/tet4.py: monoms_TET4"]}
{"id": "C142", "title": "Points in hexahedra", "statement": "_pip_H8_bulk_ reports a point for a cell if and only if the point is in the cell, up to the tolerance; _pip_H8_bulk_knn_ does so for the listed neighbours.", "quantifier": "all cells, points, tolerances and lists of neighbours", "why_tests_cant": "All points of a cell.", "anchors": ["src/polymesh/utils/cells/h8.py: _pip_H8_bulk_, _pip_H8_bulk_knn_"]}
{"id": "C143", "title": "First hits", "statement": "_find_first_hits_1d_ gives for every value the first position where it is found.", "quantifier": "all arrays of indices, every order of the iterations of the parallel loop", "why_tests_cant": "All orders in which threads may execute the iterations; a test sees one.", "anchors": ["src/polymesh/utils/cells/utils.py: _find_first_hits_1d_"]}
{"id": "C144", "title": "Copies of a triangle mesh", "statement": "populate_trimesh_T3 gives N copies of a mesh, copy i moved by i times the given vector, with the edges of all triangles and the numbers of their sides.", "quantifier": "all meshes of triangles, vectors and numbers of copies", "why_tests_cant": "All meshes and numbers of copies.", "anchors": ["src/polymesh/pop.py: populate_trimesh_T3, populate_trimesh_T3_njit"]}
{"id": "C145", "title": "Triangulating points", "statement": "triangulate gives the points it is given or makes, the triangles the chosen package finds for them and an object of this package with these points and triangles; triangles that are given are kept.", "quantifier": "all points, sizes, shapes and packages, whatever the packages find", "why_tests_cant": "All packages and combinations of arguments; which triangles the packages find is not fixed.", "anchors": ["src/polymesh/triang.py: triangulate"]}
{"id": "C146", "title": "Objects of other packages", "statement": "An object of scipy, matplotlib or pyvista is transformed to the package that is wanted, with the same points in the plane and the same triangles.", "quantifier": "all objects of the three packages", "why_tests_cant": "All objects; objects made by the package itself have the triangles it finds again.", "anchors": ["src/polymesh/triang.py: triangulate, triobj_to_mpl, get_triobj_data, is_triobj"]}
{"id": "C147", "title": "Constructors of triangle and tetrahedral meshes", "statement": "TriMesh and TetMesh made of points and cells have these points and cells, with nodes in the middle of the sides if cells with six nodes are wanted; without cells the points are triangulated. Copies are meshes of the same kind.", "quantifier": "all points, cells and combinations of arguments", "why_tests_cant": "All combinations of arguments.", "anchors": ["src/polymesh/trimesh.py: TriMesh.__init__", "src/polymesh/tetmesh.py: TetMesh.__init__", "src/polymesh/polydata.py: PolyData.__copy__"]}
{"id": "C148", "title": "Areas of quadrilaterals", "statement": "area_Q4_bulk gives the areas of quadrilaterals.", "quantifier": "all quadrilaterals", "why_tests_cant": "All quadrilaterals, also those that are not convex or not in a plane of the first two axes.", "anchors": ["src/polymesh/utils/cells/q4.py: area_Q4_bulk"]}
{"id": "C149", "title": "Names and numbers of cell types", "statement": "celltype gives name and number of a type by its name or its number, CellTypeId the number of a name; the types are those of the element classes.", "quantifier": "all names and numbers", "why_tests_cant": "All names and numbers.", "anchors": ["src/polymesh/vtkcelltypes.py: vtkCellTypes.celltype, celltype_by_name, celltype_by_value, CellTypeId, meshio_to_vtk"]}
{"id": "C150", "title": "Cells from meshes of triangles", "statement": "from_TriMesh gives points and cells of a mesh of triangles or of arrays, with nodes in the middle of the sides for triangles with six nodes.", "quantifier": "all meshes of triangles", "why_tests_cant": "All meshes.", "anchors": ["src/polymesh/polygon.py: Triangle.from_TriMesh, QuadraticTriangle.from_TriMesh"]}
{"id": "C151", "title": "Fields of new meshes", "statement": "A mesh made of coordinates, cells, frames and dictionaries of fields of points and cells has all these fields: positions in the standard frame, consecutive numbers, the frames of cells that are given or the frame of the mesh, and every field that is given.", "quantifier": "all coordinates, cells, frames and dictionaries", "why_tests_cant": "All dictionaries and combinations of arguments.", "anchors": ["src/polymesh/polydata.py: PolyData.__init__", "src/polymesh/celldata.py: CellData.__init__", "src/polymesh/pointdata.py: PointData.__init__"]}
{"id": "C152", "title": "Dictionaries given as arguments", "statement": "Making a mesh or a database leaves the dictionaries of fields that are given unchanged, so that they can be used for another mesh.", "quantifier": "all dictionaries and meshes", "why_tests_cant": "All dictionaries; the effect is on the next object made with the same dictionary.", "anchors": ["src/polymesh/polydata.py: PolyData.__init__", "src/polymesh/celldata.py: CellData.__init__", "src/polymesh/akwrap.py: AkWrapper.__init__"]}
{"id": "C153", "title": "Data of cells as keywords", "statement": "A database of cells keeps arrays given as keywords, with frames, areas, thicknesses and activity under their names, and leaves out arrays of another length.", "quantifier": "all cells and keywords", "why_tests_cant": "All keywords and lengths.", "anchors": ["src/polymesh/celldata.py: CellData.__init__, CellData._attr_map_, CellData.frames, CellData.t, CellData.A"]}
{"id": "C154", "title": "Data of points asked of cells", "statement": "An attribute of cells that only the points have is the mean of the values of the nodes of each cell.", "quantifier": "all cells and data of points", "why_tests_cant": "All data.", "anchors": ["src/polymesh/celldata.py: CellData.__getattr__", "src/polymesh/utils/utils.py: avg_cell_data"]}
{"id": "C155", "title": "Positions of new points", "statement": "Points given in the plane or in space, with or without a frame, are at the same places in the standard frame, with a zero along the new axis for points of a plane.", "quantifier": "all points, frames and new axes", "why_tests_cant": "All frames and positions.", "anchors": ["src/polymesh/pointdata.py: PointData.__init__"]}
{"id": "C156", "title": "Classes of the cells of new meshes", "statement": "The cells of a new mesh have the class of cells they are meant for: the one that is given, if it has their number of nodes, otherwise the one with their number of nodes.", "quantifier": "all cells, classes and meshes", "why_tests_cant": "All classes and widths, with all other arguments.", "anchors": ["src/polymesh/polydata.py: PolyData.__init__, PolyData._cell_classes_", "src/polymesh/linedata.py: LineData._cell_classes_", "src/polymesh/trimesh.py: TriMesh._cell_classes_"]}
{"id": "C157", "title": "Grids as meshes", "statement": "A Grid object is a mesh with the points and cells of the grid, and its cells have a class whose nodes are where the nodes of the cells are.", "quantifier": "all sizes, shapes, shifts, starts and names or shapes of cells", "why_tests_cant": "All sizes and shapes; tests look at a few.", "anchors": ["src/polymesh/grid.py: Grid.__init__, grid", "src/polymesh/polydata.py: PolyData.__init__"]}
{"id": "C158", "title": "Areas of line meshes", "statement": "A line mesh has the areas given to it, as an array, a number for all lines or a field of cells, and ones otherwise.", "quantifier": "all line meshes and areas", "why_tests_cant": "All areas and other arguments.", "anchors": ["src/polymesh/linedata.py: LineData.__init__"]}
{"id": "C159", "title": "Exports as awkward arrays", "statement": "A database as an awkward array and as an awkward record has the same fields and values; a mesh as awkward arrays has the values of all points and of all cells, in the order of the blocks.", "quantifier": "all databases, meshes and fields", "why_tests_cant": "All databases and blocks.", "anchors": ["src/polymesh/akwrap.py: AkWrapper.to_akarray, AkWrapper.to_akrecord", "src/polymesh/polydata.py: PolyData.to_ak"]}
{"id": "C160", "title": "Meshes from several inputs", "statement": "Several inputs, files or meshes of pyvista, give a list of their meshes in the same order; something that is none is an error.", "quantifier": "all lists of inputs", "why_tests_cant": "All lists.", "anchors": ["src/polymesh/io/io.py: input_to_mesh", "src/polymesh/vtkutils.py: PolyData_to_mesh"]}
{"id": "C161", "title": "Centres of triangles and coordinates of a cell", "statement": "The centre of a triangle in the plane or in space is the mean of its nodes and the image of the centre in local and natural coordinates; the coordinates of a single cell are those of its row.", "quantifier": "all coordinates and cells", "why_tests_cant": "All real coordinates.", "anchors": ["src/polymesh/utils/tri.py: center_tri_2d, center_tri_3d, lcenter_tri, ncenter_tri, monoms_tri_loc, monoms_tri_loc_bulk", "src/polymesh/utils/utils.py: cell_coords"]}
{"id": "C162", "title": "Splitting and edges along tables given by the caller", "statement": "A table given to a function that splits cells decides the pieces of every cell; a table for pieces with another number of nodes is an AssertionError. Without subdivision the corners of the cells are left. The functions that extract edges list the pairs of nodes a table selects, each once; tables with another shape, strings and data are rejected.", "quantifier": "all cells, tables and data", "why_tests_cant": "All tables; tests use the tables of the package.", "anchors": ["src/polymesh/utils/topology/tr.py: T6_to_T3, H27_to_H8, Q9_to_Q4, H8_to_TET4, H27_to_TET10, H8_to_Q4, Q4_to_T3, Q8_to_T3, W6_to_TET4, W18_to_W6, T3_to_L2, TET4_to_L2, H8_to_L2"]}
