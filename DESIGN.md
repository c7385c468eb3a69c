# Formal model of PolyMesh: design

The subject is the Python package in `/repo/src/polymesh` (pinned commit). The code is
read as text only. This document says what is modelled, how, and what is trusted.
`properties.jsonl` lists the properties; `MANIFEST.json` maps them to theorems.

## 1. Conventions of the model

* **Arrays.** A 1d integer array is `list nat`, a 2d array `list (list nat)` (rows), a
  3d array a list of those. Rectangular numpy arrays are described by the predicate
  `rect n t` (all rows have length `n`); jagged arrays are lists of lists without it. Node numbers
  are `nat`: negative entries (which numpy would wrap around) are outside the model.
* **Bounds.** Every read and write is checked in the model and yields the error value
  `Err IndexError` when out of range. Compiled numba code does not check; there `IndexError`
  stands for undefined behaviour. Theorems of the form `... = Ok ...` therefore also say that no
  out-of-range access happens.
* **Exceptions** are values: `res A := Ok a | Err e`, `e` being the Python exception class.
* **Parallel loops** (`prange`) whose result may depend on the schedule are modelled as a list of
  single-cell writes executed in a given order; theorems quantify over every permutation
  of that list. Loops that write every cell once without overlap are also covered by this scheme.
  Granularity: one array-cell write is atomic. Floating-point reductions inside one
  iteration are sequential in the code.
* **Integers** are unbounded (no int32/int64 wrap-around).
* **Floating point** numbers are modelled by exact arithmetic. Definitions are generic over a class
  of number operations (`Num`), instantiated with Coq's real numbers `R` for proofs and with rationals
  `Q` for running the model. Rounding is *not* modelled. Where a numerical tolerance
  is part of the code (e.g. point-in-cell tests) it is a parameter of the model.
* **Library functions** (`np.unique`, `np.sort`, `np.repeat`, `np.mean`, `np.cumsum`, ...)
  are modelled by their documented behaviour; `np.unique` and `np.sort` are
  implemented (insertion sort, deduplication) and *proved* to satisfy their specification, so nothing
  about them is assumed.

## 2. Files

Model files contain definitions only (each with the source file and lines it models), proof
files contain lemmas, `Properties*.v` files contain only the property theorems, closed by
`exact`, with `Print Assumptions` below and a non-vacuity `Example` beside them.

| files | content |
|-------|---------|
| Base, BaseFacts, FillFacts | errors, checked array access, dictionaries, sorting, `np.unique`, write lists |
| NumBase | class of number operations; instances for `R` and `Q` |
| TopoModel | utils/topology/topo.py; proofs in TopoProofs*, vocabulary TopoSpec, theorems PropertiesTopo (C01-C11) |
| TrModel | utils/topology/tr.py and utils/topodata.py; proofs in TrProofs*, ElevProofs*, SplitProofs*; vocabulary TrSpec, SplitSpec; theorems PropertiesTr (C12-C15, C19, C20), PropertiesSplit (C16-C18, C59, C60) |
| CellsModel | utils/cells/*.py and cells/*.py: shape functions, derivatives, reference coordinates; cell.py generate_class_functions; proofs in ShapeProofs*, vocabulary ShapeSpec, theorems PropertiesShape (C28-C32, C35) |
| EvalModel | cell.py shape_function_values, shape_function_derivatives on arrays with an element type; proofs EvalProofs; theorems PropertiesShape (C61) |
| GridModel | grid.py: grid, gridQ4/Q9/H8/H27, rgridMT, _rgridST, grid_2d_bins, grid_3d_bins; proofs GridProofs*, vocabulary GridSpec, theorems PropertiesGrid (C21-C27) |
| QuadModel | utils/cells/gauss.py, utils/cells/utils.py volumes, areas_T6, volumes_H8, volumes_H27, TET10/W6/W18.volumes; vocabulary QuadSpec (integrals as differences of antiderivatives), proofs QuadProofs*, theorems PropertiesQuad (C33, C34, C62) |
| TriModel | utils/tri.py, utils/tet.py: areas, volumes, natural and local coordinates, point location, data approximation, offset, inscribed circle (`np.linalg.inv` by an arbitrary inverse, element types of arrays where they matter); vocabulary TriSpec, proofs TriProofs*, theorems PropertiesTri (C36-C39, C64-C68, C72) |
| LocModel | cell.py loc_to_glob, points_of_cells with points, areas, volumes, locate, pip; utils/cells/utils.py hit search; utils/locate.py; utils/knn.py (the query of the search tree and the schedule are parameters); vocabulary LocSpec, proofs LocProofs*, theorems PropertiesLoc (C46, C63, C69-C71, C73, C74) |
| NodalModel | utils/utils.py: nodal distribution factors, distributing and collecting data, explode, decompose, centres, averages, orientation, neighbours, lengths, points on lines, Jacobian matrices; CellData.pull, PointData.pull (with factors in csr format); vocabulary NodalSpec, proofs NodalProofs*, theorems PropertiesNodal (C40-C45, C75, C76) |
| SpaceModel | utils/space.py: frames of surfaces, lines and planes, planarity and line tests, closest and furthest points, distance matrix, moving points; tr_cell_glob_to_loc_bulk; TriMesh normals and is_planar; vocabulary SpaceSpec, proofs SpaceProofs*, theorems PropertiesSpace (C55-C57, C77) |
| ExtrudeModel | extrude.py (TET4, W6), TriMesh.extrude; vocabulary ExtrudeSpec, proofs ExtrudeProofs*, theorems PropertiesExtrude (C47, C48, C78) |
| IndexModel | indexmanager.py; of polydata.py and meshes: numbering of cells when blocks are created, join, leave, are copied; vocabulary IndexSpec (histories as relations), proofs IndexProofs*, theorems PropertiesIndex (C52, C53) |
| ColorModel | utils/colors.py; specifications ColorSpec, proofs ColorProofs, theorems PropertiesTile (C58) |
| TileModel | tile.py; vocabulary TileSpec, proofs TileProofs*, theorems PropertiesTile (C49) |
| LineModel | mesh1d.py, and rgridMT of grid.py in one dimension; vocabulary LineSpec, proofs LineProofs*, theorems PropertiesLine (C50) |
| RecipeModel | recipes.py circular_helix, ribbed_plate, cylinder (voxelised); voxelize.py; vocabulary RecipeSpec, proofs RecipeProofs*, theorems PropertiesRecipe (C51, C79-C83) |
| TableModel | polygon.py to_triangles and trimap; cell.py flip; trimesh.py to_triobj; vtkutils.py mesh_to_vtkdata (array of cells); the attributes vtkCellType; triang.py triangulate (the points of a rectangle); vocabulary TableSpec, proofs TableProofs*, theorems PropertiesTable (C54, C84-C87) |
| FrameModel | space/frame.py CartesianFrame (relative_origo, move, copy, the setter of origo); space/pointcloud.py PointCloud (show, frame, center, move, centralize, `__getitem__`, sort_indices), in three dimensions over the reals; vocabulary FrameSpec, proofs FrameProofs*, theorems PropertiesFrame (C88-C90) |
| MeshModel | polydata.py PolyData (frame, source, blocks, points, coords, topology, to_standard_form, `__copy__`, move, center, centers, centralize, nummrg, detach, the constructor with coordinates and topology), pointdata.py PointData (constructor, frame, `__copy__`, setters of x and id), with the points and cells of a tree of blocks; vocabulary MeshSpec, proofs MeshProofs*, theorems PropertiesMesh (C91-C96) |
| InpModel | io/inp2stl.py: readInpFile, computeNormal, writeStlFile (names and facets of the files instead of their text), getMeshBBox, getBBox, the main program; `int` and `float` of a text are parameters; vocabulary InpSpec (decks and how they are written), proofs InpProofs*, theorems PropertiesInp (C97, C98) |
| QueryModel | space/pointcloud.py PointCloud (bounds, index_of_closest, index_of_furthest, closest, furthest); polydata.py PolyData (bounds, index_of_closest_point, ..._furthest_cell, lock, unlock, blocks_of_cells, cell_indices, number_of_cells, number_of_points, points with from_cells, cells_coords); vocabulary QuerySpec, proofs QueryProofs*, theorems PropertiesQuery (C99-C102) |
| SurfaceModel | cell.py PolyCell.extract_surface, source_coords; polydata.py PolyData.surface; the extraction and triangulation by vtk and pyvista is a parameter; vocabulary SurfaceSpec, proofs SurfaceProofs*, theorems PropertiesSurface (C103) |
| NetModel | grid.py knngridL2 with knn.py knn_to_lines, the search tree being a parameter; trimesh.py TriMesh.edges; vocabulary NetSpec, proofs NetProofs, theorems PropertiesNet (C104, C105) |
| IncidenceModel | topoarray.py TopologyArray; polydata.py topology, cells_at_nodes, nodal_adjacency, nodal_distribution_factors, areas, volumes; celldata.py set_nodal_distribution_factors; areas and volumes of lines and surfaces in cell.py; vocabulary IncidenceSpec, proofs IncidenceProofs, theorems PropertiesIncidence (C106 to C109) |
| DiskModel | recipes.py circular_disk, cylinder (regular), perforated_cube; the triangulation of matplotlib is a parameter; vocabulary DiskSpec, proofs DiskProofs*, theorems PropertiesDisk (C110 to C112) |
| ExchangeModel | polydata.py from_meshio, from_pv, to_lists; akwrap.py AkWrapper.__init__, to_dict, to_list; abcdata.py; celldata.py CellData.frames (setter); vocabulary ExchangeSpec, proofs ExchangeProofs*, theorems PropertiesExchange (C113 to C116) |
| DisplayModel | polydata.py _detach_block_data_, _has_plot_scalars_, to_vtk, to_pv, to_k3d (up to the objects of vtk, pyvista and k3d: their points, cells, types and data), pvplot (the parameters of each block only), point_fields, cell_fields, k_nearest_cell_neighbours, cells_around_cells; vtkutils.py mesh_to_vtkdata, mesh_to_UnstructuredGrid; utils.py explode_mesh_data_bulk; vocabulary DisplaySpec, proofs DisplayProofs*, theorems PropertiesDisplay (C117 to C122) |
| BlockModel | cell.py points_of_cells, local_coordinates (of PolyCell and PolyCell2d), jacobian_matrix, jacobian, unique_indices, points_involved, detach_points_cells, to_simplices; line.py jacobian; utils.py pcoords_to_coords (with its number of points); vocabulary BlockSpec, proofs BlockProofs*, theorems PropertiesBlock (C123 to C126) |
| TurnModel | pointcloud.py rotate; polydata.py rotate, spin; cell.py _rotate_; vocabulary TurnSpec, proofs TurnProofs, theorems PropertiesTurn (C127 to C130) |
| LinkModel | polydata.py __init__, __join_parent__, __leave_parent__, __copy__, source, nummrg (no children), to_standard_form, detach (no renumbering); celldata.py and pointdata.py __copy__; cell.py source_coords, as to which object cells refer to; vocabulary LinkSpec, proofs LinkProofs, LinkProofs2, theorems PropertiesLink (C131 to C133) |
| SectionModel | section.py, without plotting and materials; vocabulary SectionSpec, proofs SectionProofs to SectionProofs4, theorems PropertiesSection (C134 to C138) |
| ClassModel | cell.py generate_class_functions, shape_function_values, shape_function_derivatives, shape_function_matrix as methods of classes with the attributes they set, for all twelve classes; vocabulary ClassSpec, proofs ClassProofs, ClassProofs2, theorems PropertiesClass (C139, C140) |
| ProbeModel | utils/cells/utils.py local coordinates from monomials, first hits; utils/cells/h8.py points in hexahedra; utils/cells monoms of arrays; pop.py; vocabulary ProbeSpec, proofs ProbeProofs to ProbeProofs5, theorems PropertiesProbe (C141 to C144) |
| TriangModel | triang.py; trimesh.py and tetmesh.py constructors, copies of both; vocabulary TriangSpec, proofs TriangProofs, TriangProofs2, theorems PropertiesTriang (C145 to C147) |
| RestModel | utils/cells/q4.py areas; vtkcelltypes.py; polygon.py from_TriMesh; vocabulary RestSpec, proofs RestProofs, theorems PropertiesRest (C148 to C150) |
| FieldModel | celldata.py, pointdata.py, polydata.py and akwrap.py constructors and the dictionaries given to them; CellData.__getattr__; vocabulary FieldSpec, proofs FieldProofs to FieldProofs3, theorems PropertiesField (C151 to C155) |
| KindModel | polydata.py 158-168 and 253-288, linedata.py 20-36, trimesh.py 62-65, grid.py 606-631: classes of cells, line meshes, Grid; vocabulary KindSpec, proofs KindProofs, KindProofs2, theorems PropertiesKind (C156 to C158) |
| TailModel | akwrap.py to_akarray, to_akrecord; polydata.py to_ak; io/io.py input_to_mesh; utils/tri.py centres and monomials; utils/utils.py cell_coords; vocabulary TailSpec, proofs TailProofs, theorems PropertiesTail (C159 to C161) |
| SplitModel2 | utils/topology/tr.py 398-473 with all arguments; vocabulary SplitSpec2, proofs SplitProofs8, theorems PropertiesCaller (C162) |

## 3. Plan per property

| id | modelled code | approach |
|----|---------------|----------|
| C01 | topo.py count functions | fold over entries; proved equal to `count_occ` |
| C02 | topo.py cells_at_nodes and converters | loop invariant of the padded fill; converters proved to be reads of it |
| C03 | topo.py nodal_adjacency (2d and jagged) | membership characterisation via C02 |
| C04 | is_regular | counting lemma on duplicate-free lists |
| C05 | regularize | position in the sorted unique list; inverse law |
| C06 | rewire and inverse maps | dictionary as association list, last write wins |
| C07 | detach_* | composition of C05/C06 lemmas with row lookup |
| C08 | detach with inds, PointCloud indexing | composition of two renumberings |
| C09 | unique_topo_data | sort rows, unique rows; permutation characterisation |
| C10 | docstring of unique_topo_data | expected false: refutation witness plus the exact condition |
| C11 | regularize on csr_matrix | state passing model; expected false for csr_matrix |
| C12 | transform_topology, compose_trmap | index arithmetic, schedule theorem |
| C13 | transform_topology_data | same lookup lemma for data |
| C14 | elevation functions | C09 plus index offsets |
| C15 | elevation vs lcoords | reals, per element type |
| C16 | 2d splitting tables | ring identities on shoelace sums |
| C17 | 3d splitting tables | ring identities on determinants |
| C18 | H8_to_TET4 conformity | expected false: witness on a two-cell grid |
| C19 | faces_W6, W6_to_W18 | expected false: out-of-range write for every input |
| C20 | *_to_L2 | C09 + C12 |
| C21-C26 | grid.py | mixed-radix index arithmetic, write-list schedule theorem |
| C27 | grid argument handling | decision model of `grid`; expected false |
| C28-C31 | utils/cells | reals; `ring`/`lra`, `derivable_pt_lim` |
| C32 | generate_class_functions | abstract interpolation argument with a left inverse of the Vandermonde matrix |
| C33 | gauss.py | exact moments over the reals (with square roots) |
| C34 | quadrature volumes | identities for affine maps |
| C62 | quadrature volumes | degree of the determinant in each variable; expected false for W6 |
| C35 | lcenter | finite computation; expected false for tetrahedra |
| C36-C39 | tri.py, tet.py | field identities, order reasoning |
| C40-C41 | nodal distribution | sums over incidences |
| C42 | explode/decompose | write lists and schedules |
| C43-C44 | centres, orientation | induction on point lists |
| C45 | points_around | model of the padded buffer; expected false |
| C75 | lines | reals with square roots; expected false for cells selected by id |
| C76 | Jacobian matrices | derivatives of the interpolated position; false for L3 |
| C46 | _find_first_hits_ | write lists; expected schedule dependent |
| C47-C48 | extrude.py | index arithmetic, determinants; conformity expected false in general |
| C49 | tile.py | model of the merge map; expected false at corners |
| C50 | mesh1d.py | index arithmetic, interpolation |
| C51 | recipes.py subdivide | ceil arithmetic over reals |
| C79-C80 | ribbed_plate | positions sorted without duplicates; a box is kept if its centre is in a part; C59 for tetrahedra; conformity expected false |
| C81 | circular_helix | case distinction; expected false for the radius with the slope |
| C82 | voxelize_cylinder | Cauchy-Schwarz for the distance from the axis |
| C83 | grid with centralize | sums of arithmetic progressions |
| C84 | pieces of a straight T6 | barycentric weights with respect to the corners |
| C85 | VTK | deterministic decoding relation; tables compared through an affine map |
| C86 | points of a rectangle | entries of a product grid |
| C87 | flip | polynomial identities per class |
| C88-C89 | frames and clouds | a place of space for every frame and triple of coordinates; identities of orthonormal matrices |
| C90 | indices of clouds | invariant `refers_to` kept by every key; expected false for negative slices |
| C91-C93 | standard form, coordinates, copies | induction over the tree; the place of every node of every cell, with the closest points above it; expected false for frames with an origin |
| C94-C96 | motions, merging, detaching | replacing one block splits the list of all cells in three parts; expected false for nested points or cells |
| C97-C98 | Abaqus to STL | a grammar of the lines of a file; invariant of the reading loop; the side of a face on which the fourth corner lies; expected false for other labels and for normals |
| C52-C53 | IndexManager | invariant over histories; expected false for bulk generation from a longer queue |
| C54 | tables | symbolic run on one cell, boundary decided on the reference cell; identity of polynomials for the volumes (modal coefficients for H8) |
| C55-C57 | space.py | reals with square roots |
| C77 | tr_cell_glob_to_loc_bulk | coordinates in an orthonormal frame |
| C78 | TriMesh.extrude | permutation of the axes; false for tilted or moved planes |
| C58 | colors.py | strings |
| C59 | 3d splitting tables | local coordinates are unique in an affine cell; linear inequalities |
| C60 | W6_to_TET4 | expected false: explicit uncovered and doubly covered points |
| C63, C69-C71 | cell.py loc_to_glob, areas, volumes, locate, pip | matrix products, barycentric coordinates; loc_to_glob and lazy search expected false |
| C73, C74 | knn.py, locate.py | specification of the search tree; C37 for the plane |
| C64-C68, C72 | tri.py | field identities with square roots; expected false for C64, C65, C67, C72 |
| C61 | evaluation of shape functions at arrays of points | arrays with an element type; expected false for integers |
| C99, C100 | bounds, closest and furthest points | minimum and maximum of lists; C55-style search over points shown in the standard frame; frames with an origin expected false |
| C101, C102 | blocks and points of cells | walk through the blocks; dictionaries; nested points expected false |
| C103 | surface | a point at distance zero is the same point; faces counted once for each block only, so false across blocks |
| C104, C105 | nets of lines, edges of triangles | both are the unique rows of sorted pairs (C09); detaching changes nothing if all points are used |
| C106 to C109 | topologies of whole meshes | the rows of the mesh are those of its blocks; joining arrays by filling slices keeps an invariant; then C01 to C04 and C65 to C68 apply to the joined topology |
| C110 to C112 | disks, cylinders, cubes with holes | polar coordinates for areas and centres of triangles between rings; sums that telescope; three points of a circle that are not the same have their centre in it; then C13 (detach) and C47 (extrusion) |
| C113 to C116 | import, export, selection of fields, classes | induction over the blocks, fields and class statements; counting cells when an entry of a dictionary is replaced; frames from C55 |
| C117 to C122 | what is shown of a mesh: grids, data, objects, parameters of plots, names, neighbours of cells | walk of the blocks with their ancestors; detaching from C07; places as for the centres of cells; an invariant of the store of configurations (the same but for the colour) |
| C123 to C126 | queries of blocks: points of selected cells, local coordinates, determinants of the Jacobian, points and simplices | expansion for perpendicular unit vectors; the matrices as sums over the nodes, the origin of the local coordinates drops out since derivatives add up to zero; detaching from C07 |
| C127 to C130 | rotations of clouds, meshes and frames of cells, spinning | places and axes in space from C88; a change of the coordinates of one block as a change of the places of its nodes, as for moving; matrices as three rows |
| C131 to C133 | which points cells refer to, copies, renumbering, standard form, detaching | a heap of objects with points; a mesh is sound if its cells find the points of their source in every heap; invariant of the copies made so far |
| C134 to C138 | sections of beams: limits of the mesh, parameters, mesh, extrusion, properties | all meshes of triangles of the calculated size; moved points keep areas; level triangles have one normal; an invariant of the calls |
| C139, C140 | methods of element classes | the state is the generated matrix; before and after it the functions agree by C28 to C32 |
| C141, C142 | local coordinates from monomials, points in hexahedra | weights from an inverse reproduce sums of monomials, coordinates of affine cells are such sums |
| C143, C144 | first hits, copies of meshes | an invariant of the writes; shifted sorted pairs stay sorted |
| C145 to C147 | triangulations, objects, constructors | case analysis of the arguments; elevation by C14 |
| C148 to C150 | areas, cell types, cells of meshes | areas of two triangles are the sum over the edges |
| C151 to C155 | data given to new databases and meshes | dictionaries as lists of names and columns; the last of the entries with the same name of a column counts |
| C156 to C158 | classes of cells, grids as meshes, line meshes | cases over classes and widths; places of nodes from C01 to C10 |
| C159 to C161 | exports as awkward arrays, inputs, centres | records to columns and back; real arithmetic |
| C162 | tables given by the caller | cases over the functions, C13 and C20 for the values |

## 4. Trusted base

* Coq 8.16.1 kernel (checked again by `coqchk`).
* Axioms: those listed by `Print Assumptions` under each theorem. Combinatorial theorems are
  closed under the global context; theorems about `R` use the standard library's axioms
  for the reals. No axioms of our own.
* Functions of other packages are modelled by what their documentation promises: numpy, scipy.sparse, awkward
  (sections 1, 2), `np.linalg.inv` (any right inverse), `neumann.numint.gauss_points` (the Gauss-Legendre points for
  one, two and three points), `scipy.spatial.cKDTree.query` (any function that returns k points none of the others being
  closer; such a function is exhibited), `neumann` (a frame has three axes; `Vector.show` gives the components of the same
  vector in another frame; for C127 to C130: `dcm()` has the axes as rows, `orient_new` gives a frame oriented relative to the frame it is called on, `Vector.orient(dcm)` multiplies with the transposed matrix, `Frame.rotate` orients each frame relative to itself, which is the least certain of these and concerns C130 only; for C131 to C133: assigning a block to a key calls `__join_parent__` of this block only, an object of the class PolyData has no attribute `x`, the copy of an awkward record is an independent table, the points of each object are numbered from 0, all frames are the axes of space; for C134 to C138: the functions of sectionproperties have the parameters listed in `signature`, all of them required, its triangles have six nodes with node 3 opposite to corner 0 and so on, its results are None before the calculation, `getallfromkwargs` gives those of the keys that are present, points of the plane get the third coordinate 0 in a frame of space; for C139 and C140: compiled functions reject numbers where an array is unpacked or indexed, and arrays of arrays, with a TypeError, generated functions unpack one argument, `np.stack` of nothing is a ValueError; for C141: `neumann.linalg.inv` gives an inverse if there is one, numbers that do not fit a row are a ValueError; for C144: `neumann.tile` gives N copies, copy i with i times the second argument added; for C145 to C147: what scipy, matplotlib and pyvista find are parameters, all of them are installed, `matplotlib.tri.Triangulation` wants rows of three numbers of points, otherwise a ValueError, `np.random.rand` gives as many numbers as wanted, in [0, 1); for C151 to C153: `ak.zip` of columns of different lengths is a ValueError (columns of length one may be repeated, no theorem is about them), numbers of a single point or cell are an array with one entry, frames have three axes and `show()` gives them; for C159: `ak.from_iter` of records has a column for every name, in the order in which they appear, with None where a record lacks it; for C160: what meshio and pyvista read is given; a `JaggedArray` is the list of its rows, cut by `awkward.unflatten`), `vtk` and `pyvista` (for C103: the surface of tetrahedra consists of the faces of one cell; such a function is exhibited), `linkeddeepdict` (`containers` visits a block before the blocks below it, in order of insertion), numba (the compiled functions mean what the Python text means; parallel loops run
  their iterations in any order).
* The correspondence between the Python code and the model, which is by reading (each
  definition cites its lines).
* Not modelled:
  * the objects of k3d, pyvista and VTK beyond their points, cells, types and data; `PolyData.plot`, `k3dplot`, of `pvplot` all but the parameters of the blocks;
  * files (`to_parquet`, what `io/io.py` reads, `from_parquet`, the text of STL files), meshio, configuration (`config.py`), `examples.py`;
  * the tessellators behind `triangulate` and `tetrahedralize` (scipy, matplotlib, triangle, tetgen) and the package sectionproperties;
  * the containers of awkward arrays (jagged arrays are modelled as lists of lists), of `akwrap.py` what is not listed in section 2;
  * of `section.py` materials, plots and `LineSection` as an object;
  * of `polydata.py` the properties that only pass on data (`to_dataframe`, `config`), and whether arrays are shared between objects;
  * of `space/point.py` nothing; of `pointcloud.py` the methods not listed in section 2;
  * rounding: floating point numbers are elements of a field or reals; overflow of integers.

## 5. Findings

Properties that are false of the code as written (each with a `_refuted` theorem):

* **C03** `nodal_adjacency` never accepts a csr_matrix; without networkx only `frmt='jagged'` works.
* **C10** `unique_topo_data`: the reconstruction promised by the docstring returns sorted rows.
* **C11** queries on an irregular csr_matrix renumber the argument in place.
* **C13** `transform_topology` with cell data of shape (number of cells, number of nodes per cell) treats
  the data as nodal data.
* **C16** `Q9_to_T6` expects cells numbered row by row, whereas `Q4_to_Q9` and the Q9 element use
  another numbering. `Q9_to_T6(*Q4_to_Q9(..))`, found in the documentation and in the tests, yields wrong triangles.
* **C18** `H8_to_TET4` uses the same five tetrahedra in each cell, so neighbouring cells get crossing
  diagonals on their common face.
* **C19** `faces_W6` (topodata.py 184) writes `faces2[:, 1, 3]`, out of bounds, so `W6_to_W18` fails for
  every non-empty mesh.
* **C26** `grid_3d_bins` allocates the coordinates with the element type of the bins: with integer bins
  and more than two nodes along an edge the nodes between the bins are truncated onto their neighbours.
* **C27** `grid` without `eshape` fails an assertion unless bins are given; with a named `eshape` the
  argument `path` is dropped; grids in one dimension always raise.
* **C31** `shape_function_matrix_H8` multiplies into a unit matrix of size 3 whatever `ndof` is, so it fails unless `ndof = 3`.
* **C32** `TET4.polybase` lists ten monomials for four nodes; `generate_class_functions` raises for TET4.
* **C35** `lcenter` of TET4 and TET10 is (1/3, 1/3, 1/3), a point of a face.
* **C60** the three tetrahedra of `W6_to_TET4` overlap and leave a gap; volumes add up nevertheless.
* **C61** the arrays returned by `shape_function_values` and `shape_function_derivatives` take the element type of
  the evaluation points; for integer points values and derivatives of L2, Q4, H8 are truncated to zero.
* **C33** `Gauss_Legendre_Wedge_3x2` places both layers at the first point of the line (exact for constants only);
  `Gauss_Legendre_Tet_11` uses (1 + 3 sqrt(5/15))/4 where (1 + sqrt(5/14))/4 is needed: some of its points are outside of
  the tetrahedron and not even linear functions are integrated exactly. Proved: with that one number replaced the rule has degree 4, and
  with the second layer of the wedge at the opposite height that rule has degree 2 in the plane and 3 along the axis.
* **C62** because of that rule `W6.volumes` is wrong for wedges whose ends differ; the rules of TET10 and W18 have
  a lower degree than the determinant for curved cells.
* **C37** `glob_to_nat_tri` uses absolute values of two of the three areas: every clockwise triangle gets wrong natural
  coordinates. With integer coordinates the result array is of integers and the coordinates are truncated.
* **C38** `localize_points` and `get_points_inside_triangles` only test that no natural coordinate exceeds 1, so
  points outside are reported inside, and points are assigned to the wrong triangle. Clockwise triangles contain no points.
* **C64** `glob_to_loc_tri` multiplies by the inverse matrix on the wrong side.
* **C65** `approx_data_to_points` stores results at the index of the triangle, so values are exchanged or the array is exceeded.
* **C66** `offset_tri` with one number: `offset_tri_uniform` passes an argument to `ncenter_tri`, which takes none, so the call always raises.
* **C67** `tri_glob_to_loc` does not normalize the second axis (the cross product of unit vectors that are not
  perpendicular), so lengths are kept for right angles only.
* **C72** `shape_function_matrix_tri_loc` adds a 3x3 block whatever `nDOFN` is.
* **C46** `_find_first_hits_` keeps the last hit of a row (sequentially), in parallel any of them.
* **C63** `loc_to_glob` passes the transposed matrix of shape function values: it raises unless there are as many points as
  nodes, and then exchanges points and nodes.
* **C69** `T6.areas` uses the first two coordinates only, so an upright triangle has area 0.
* **C70** `locate` uses the tetrahedra of W6 that leave a gap (C60), so points inside of wedges are not found; for distorted
  hexahedra the local coordinates are those of another point; TET10 and H27 have no table.
* **C71** with `lazy=True` only four tetrahedra with the nearest centres are examined: in graded meshes points are lost. A mesh
  with a single tetrahedron raises.
* **C73** `k_nearest_neighbours` ignores `max_distance` for scipy 1.6 and later.
* **C74** clockwise triangles are never found (consequence of C37).
* **C40** `nodal_distribution_factors` stores the factors with the element type of the weights: integer weights give zeros.
* **C41** `collect_nodal_data` runs the nodes of a cell in parallel; a repeated node in a cell makes additions race.
* **C42** `explode_mesh_data_bulk` stores the data with the element type of the coordinates.
* **C43** `centralize` uses the element type of the coordinates for the centre, and always reads two components of it;
  `avg_cell_data` has no branch for 1d data.
* **C45** `_cells_around_MT_` fills its rows with zeros and returns the full width, so `points_around` lists point 0 as a neighbour
  of every point with fewer than `n_max` neighbours, and forgets neighbours above `n_max`.
* **C75** `pcoords_to_coords_1d` documents [-1, 1] but implements [0, 1]; `PolyCell1d.points_of_cells` uses cell ids as row numbers, and
  for curved L3 lines returns a point of the chord instead of the middle node.
* **C76** `jacobian_matrix_bulk` allocates a square array, so cells embedded in a space of higher dimension raise; L3 lines use half of
  the distance of the ends.
* **C55** `frames_of_surfaces` stores the axes with the element type of the coordinates, so integer coordinates give zeros and then
  a division by zero; `frame_of_plane` uses the first point, the middle one of the list and the centre, which are aligned for
  every parallelogram; `frames_of_lines` ignores a reference given as a list.
* **C56** `is_planar` tests a plane through the origin, `is_line` compares directions of consecutive points with that of the line
  incorrectly and rejects every line; `TriMesh.is_planar` accepts triangles of parallel planes and rejects opposite orientations.
* **C57** `index_of_furthest_point` with several integer positions cuts distances off to integers.
* **C47** the extruded coordinates have the element type of the points: integer points with a height below 1 give a flat mesh.
* **C48** each prism is cut along diagonals that depend on the order in which its triangle lists the nodes: the mesh is conforming if
  and only if all triangles list their common nodes in the same order (for consistently oriented triangles: each interior edge must be
  the one from the last node back to the first in exactly one of its two triangles).
* **C78** `TriMesh.extrude` drops the coordinate along `_newaxis`, so the mesh starts at 0 wherever the surface is, and a tilted
  surface is projected.
* **C49** where four tiles meet `tile2d` leaves two points: the corner is joined along y with one neighbour, whose own corner is
  joined along x with another node. Nodes of opposite sides are paired in the order of their numbers: a rectangle numbered
  around is joined crosswise. Sides with different numbers of nodes raise ValueError.
* **C52** `IndexManager.generate` advances `next` by `n - len(queue)` also if more numbers wait than are asked for, so numbers in
  use are handed out again.
* **C53** a block with children that joins another mesh is renumbered without its children; a deep copy starts to count from 0;
  points are not renumbered.
* **C58** `rgb_to_hex` accepts channels above 255 and writes more than six digits.
* **C50** `mesh1d.py` cannot be imported: `frames_of_lines` is in `utils.space`, not in `space`. The code behind the import
  truncates new points if the coordinates are integers, and writes out of bounds for more than two nodes per segment.
* **C51** `ribbed_plate(lmax=1)`: only a float is used, an int is silently ignored.
* **C79** a rib that does not touch the plate is either joined to it (narrow gap) or lost (wide gap), since only its free end becomes
  a position of the grid. A rib wider than the plate widens the plate.
* **C80** tetrahedra of neighbouring boxes of a ribbed plate meet in crossing diagonals, always.
* **C81** `circular_helix(a=.., slope=..)` computes `b = slope / a` instead of `a / slope`; a pitch or slope given beside a and b is ignored.
* **C82** `cylinder`: a radius given as a float raises IndexError. By reading only: the documentation gives `size` as (angular,
  radial, vertical) where the code reads (radial, angular, vertical); `shape` is documented as a pair or a float and unpacked into three;
  `angle` is never used; a voxelised cylinder spans [-h/2, h/2], a regular one [0, h]; `circular_disk` documents its first two
  arguments in the wrong order.
* **C54** `faces_W6` writes column 3 of an array with three columns: undefined behaviour for every mesh with a wedge.
* **C84** `TriMesh.to_triobj` divides triangles with six nodes along [[0,5,4],[5,1,3],[3,2,4],[5,3,4]]; with the numbering of T6 (3, 4, 5 on
  0-1, 1-2, 2-0) the pieces overlap, leave gaps, and three have the opposite orientation.
* **C86** `triangulate(size, shape)`: shape counts points, not subdivisions; the default (1, 1) gives one point; an int as shape without
  random=True replaces the size and then fails with TypeError. The domain starts at -origo; the third entry of origo is not used.
* **C87** `PolyCell.flip` keeps the orientation of tetrahedra, hexahedra and wedges (reversing four, six or eight nodes of these cells is a
  rotation) and turns the midpoints of T6 into corners.
* **C88** `PointCloud.show(target)` of a cloud in a frame of the package neumann ignores the origin of the target.
* **C89** `PointCloud.move` without a frame uses the frame of the points although the documentation says the root frame; for a `Vector` its own
  frame is ignored; `centralize` without a target computes the centre in the root frame and subtracts it in the frame of the points; a
  shallow copy of a `CartesianFrame` shares the array of its origin, which `move` changes in place; the setter of `CartesianFrame.origo`
  compares with, and replaces, the axes.
* **C90** `PointCloud.__getitem__` computes the indices of a slice with `range(start, stop, step)` and not with `slice.indices`: negative or
  too large bounds and negative steps give wrong indices or IndexError; a mask on a cloud without indices gives indices 0 and 1.
* **C91** `PolyData.to_standard_form` writes coordinates in the frame of the root and then gives them to the constructor of PointData, which
  converts from that frame again; a block with one point fails an assertion (the index manager returns an int); a mesh without cells and
  fields of several columns that a block lacks raise ValueError; the activity of points is dropped; with inplace=False the default values
  are not passed on. (By reading: the cell index manager of the root is not told about the new numbers.)
* **C92** `PolyData.points` uses `Vector.show`, which knows no origins, for every block; a new mesh in a frame applies it in the constructor of
  PointData and again in `coords`; `centers(target)` takes centres in the standard frame as coordinates in the frame of the source. (By
  reading: `surface` passes coordinates in the standard frame together with the frame of the mesh.)
* **C93** `PolyData.__copy__` makes frames from the axes only; the root needs a frame; children are rewired from the indices of their points;
  the cells of the root keep their numbers while those of the children are counted from 0; children without points get no frame.
* **C94** `PolyData.move` assigns the moved part of the points to the whole table; `centralize` has an argument `axes` that it does not use,
  and subtracts the centre, seen from the target, from coordinates in the frames of the blocks.
* **C95** `PolyData.nummrg` rewires every block with cells together with all blocks below it, so cells in nested blocks are renamed once
  for each block with cells above them.
* **C96** `PolyData.detach` takes the points of the source and the cells of all blocks below, whatever points they have; the points are not
  copied, their indices are overwritten, and (by reading) moving the detached mesh moves the mesh it comes from.
* **C97** `readInpFile` ignores the labels of nodes and takes label n as the n-th node of the part: nodes that are not labelled 1, 2, 3, ... in
  order give other solids without a message. The type has to be the first parameter, after exactly one blank; `*NODE PRINT` and `*NODE FILE`
  are taken for nodes and raise.
* **C98** `inp2stl` writes all faces of all tetrahedra, also those between two of them. For tetrahedra numbered as in the manual it refers to
  (node32 of CalculiX), the normals point inwards unless `--flip` is given. Names of sets are kept in a list without gaps, so a block
  without a name shifts them. An empty block or a flat tetrahedron raises.
* **C99** `PolyData.bounds`: as C92, a block in a frame with another origin is taken as if it were in the frame of the root.
* **C100** `PointCloud.index_of_closest` and `index_of_furthest` show the position as a vector: the origin of the frame is ignored. For several
  positions `closest` and `furthest` return a cloud whose indices are positions, although the cloud had indices.
* **C101** Copying a mesh gives cells of different blocks the same number; `blocks_of_cells` then returns the last of these blocks. Mappers made by
  `lock(create_mappers=True)` are kept when the mesh is brought to standard form.
* **C102** `points(from_cells=True)`, `cells_coords` and `number_of_points` take the points of the source for all blocks below.
* **C103** `PolyData.surface` keeps the faces between blocks (`np.unique` removes copies with the same order of nodes, not the faces); applies the
  frame to ambient coordinates, twice; matches points by place, so points at the same place are confused; and, if the cells refer to their
  points, compares ambient with local coordinates.
* **C104** `knngridL2` passes `max_distance` on only to old versions of scipy; for these, missing neighbours have the number of the points, which
  is used as a node. `k = 1` gives an array with one axis, which `knn_to_lines` refuses.
* **C106** `TopologyArray` accepts an iterable that is no array, but `data` is then not defined (UnboundLocalError).
* **C107** `cells_at_nodes` and `nodal_adjacency` of a mesh join the topologies of all blocks, although blocks with points of their own use the
  same numbers for other points.
* **C108** `nodal_distribution_factors(weights="uniform")` takes the length of a csr matrix if the cells differ in their numbers of nodes
  (TypeError). `set_nodal_distribution_factors` looks the default name up among the names of attributes (KeyError) and refers to the field `id`,
  which is stored as `_id` (AttributeError).
* **C109** `PolyData.areas` takes all cells of less than three dimensions: lines count with the area of their cross section (one by default), so
  `area` is not the area of the surfaces.
* **C110** `circular_disk` tells the triangles of the hole from the others by their centres, so triangles outside of the hole with two nodes on
  the inner circle are dropped if the next ring is closer than about 3 - 2 cos(pi / nangles) times the inner radius: the hole gets larger and
  ragged. By reading only: the documentation has the meanings of its first two arguments exchanged.
* **C111** `cylinder` reads `size` as (radial, angular, vertical), the documentation says (angular, radial, vertical); `angle` is not used.
* **C112** `perforated_cube` has no cells if `lz < lmax` (no layer) or if the corners are within `radius + lmax` (all points of the grid are
  dropped, corners too; the same for negative heights of less than `lmax`, others give a ValueError); with `order=2` and the default `prismatic=True` it always fails (C19).
* **C113** `from_meshio` stores the blocks of cells under their types, so of several blocks of the same type (meshio has them in order, for
  example one for each part of a Gmsh file) only the last is kept; types that are not supported are skipped without notice.
* **C114** `to_lists` (and `to_ak`, `to_dataframe`, `to_parquet`) reduce a list that is empty for a mesh without cells: TypeError. An empty
  list of fields ends in an AttributeError.
* **C115** `AkWrapper.to_dict` and `to_list` append their arguments to the list that the caller gave as `fields`; tuples have no `extend`;
  an empty list means all fields for `to_dict` and an error for `to_list`; `__init__` adds arrays to the dictionary of the caller.
* **C116** the metaclass updates the map of names of a class with those of its bases, so the class cannot override an entry, and later
  bases override earlier ones.
* **C117** `topology` of a block includes the cells below it, so nested blocks of cells are shown twice by `to_vtk` (or fail if they differ in
  their numbers of nodes). `to_vtk(multiblock=False)` of a mesh without cells takes the first of no grids (IndexError).
* **C118** `to_pv` attaches a field to the points if it is as long as these, even if it belongs to the cells (any closed ring of lines);
  `multiblock=True` drops the data. `_has_plot_scalars_` asks the closest ancestor that has the field, `_detach_block_data_` the closest one that
  has points.
* **C119** `to_k3d` uses the coordinates of the source of the mesh for the cells of all blocks.
* **C120** `pvplot` pops `color` from the stored configuration, which may belong to an ancestor.
* **C121** `point_fields` and `cell_fields` leave out the object itself and join lists of names with `np.array`, which needs equal lengths (before numpy 1.24 it makes an array of lists).
* **C122** `k_nearest_cell_neighbours` counts the cell itself as its first neighbour and ignores `max_distance`; `cells_around_cells` passes no
  `n_max`, so rows end after ten cells and are filled up with cell 0. By reading only: `_in_all_pointdata_` and `_in_all_celldata_` refer to an
  attribute `db` that `PolyData` does not have.
* **C123** `points_of_cells(cells=…)` keeps the given indices that occur among the indices of the cells, but then uses them as positions in the
  block: for blocks that do not start with cell 0 other cells are returned, or an IndexError. The test for an array with three axes
  (`len(shp) == 3`) compares the number of positions: three positions are indexed by cells.
* **C124** `local_coordinates(target=…)` passes one matrix where one for each cell is expected, so cell `i` is multiplied by row `i` and the number
  is written to all three coordinates (and for more than three cells memory is read past the end).
* **C125** `Line.jacobian(dshp=…)` ignores the derivatives and passes `None` to a compiled function (TypeError).
* **C126** `to_simplices` calls itself for lines (RecursionError).
* **C127** `PointCloud.rotate` multiplies the coordinates in the frame of the cloud with the axes of the rotated frame in space. This is right only
  if the frame has the axes of space; otherwise a rotation by nothing already moves the points.
* **C128** `PolyData.rotate` inherits this. For a block without points it takes the used points of the source and assigns them to the
  coordinates of the source: a ValueError unless all points are used. The coordinates are those of the frame of the block, not of the source.
* **C129** `PolyData.spin` computes the centre in space but moves the coordinates of the frame: if the frame has another origin, the mesh is also displaced.
* **C130** `_rotate_` turns the frame of a cell relative to its own axes, the cells relative to those of space: the frames do not follow the cells.
* **C131** `__join_parent__` sets what cells refer to only if it is None, and `__leave_parent__` does not reset it: a block that moves to another
  mesh keeps the points of the first.
* **C132** In a shallow copy the points of the root and those its cells refer to are copied separately, so moving the copy does not move its cells.
* **C133** `nummrg` replaces the points but not what the cells refer to: the new numbers are read from the old points. `detach` gives the cells of
  the block the mesh instead of its points, so their coordinates are an AttributeError, and it shares the points with the original.
* **C134** `generate_mesh` turns the greatest number of elements into a greatest area, area / n_max: every mesh then has at least n_max elements.
  A greatest edge length holds for equilateral triangles only. `isinstance(l_max, float)` drops integers, so `l_max=1` is no limit.
* **C135** `get_section("RHS", ...)` passes `n_out` on instead of `r_out` and always fails; `get_section("RS", d, b)` reads a thickness `t`; the
  documented example passes `n_min`, which `generate_mesh` does not have. `LineSection(shape="CHS", ...)` makes no section.
* **C136** `LineSection.coords` moves the mean of the vertices to the origin, which is not the centre of the section.
* **C137** `LineSection.extrude` without a frame is an AssertionError: the points stay in the plane and `TriMesh.axes` needs three coordinates.
* **C138** `Ix` before the calculation adds None to None.
* **C139** `generate_class_functions(update=True)` replaces the formulas of a class. Afterwards `shape_function_matrix` without a number of unknowns
  has three per node instead of two, H8 accepts other numbers than three, integers are no longer truncated, L2 takes arrays of two dimensions instead
  of one, arrays without points are an error. `tests/test_cells.py` compares formulas and generated functions after it has replaced the former by the latter.
* **C140** "If there is only one evaluation point, the returned array is one dimensional" is never so. Elements of the plane reject one point, the
  derivatives of T3 have two blocks then. The derivatives of L2 have two dimensions instead of three. L3 cannot be evaluated at its own `lcoords()`.
* **C141** the functions solve for weights that reproduce the monomials of the global coordinates. These are the shape functions only for special cells:
  in a trapezoid the point (9/10, 0, 0) gets 6/5, and for a cube turned by 45 degrees the matrix is singular. `monoms_TET4_multi` has rows of four numbers for ten.
* **C142** `_pip_H8_bulk_knn_` reads and writes column k instead of column `knn[i, k]`; it does not use `knn` but for its width.
* **C143** `_find_first_hits_1d_` lets later positions overwrite earlier ones.
* **C145** `triangulate` fails an assertion if triangles are given and the package is not matplotlib. An unknown `backend` is not reported: the result is
  `(points, None, None)`. Points as positional argument are ignored. Random points are moved along the third axis by `origo`, regular ones are not.
* **C146** the documentation says that `triangulate` transforms between packages; with `triobj` the argument `backend` is ignored. The triangles of an object of
  pyvista are thrown away and its points triangulated again. `is_triobj` returns None instead of False.
* **C147** `TriMesh(coords=..., topo=...)` passes both names twice and fails although the documentation says that these names are available;
  `TriMesh(pd, cd)` is a RuntimeError; copies of a `TriMesh` or `TetMesh` fail, since the copy is made by `cls(frame=frame)`.
* **C148** upright quadrilaterals have area 0. **C149** `vtkCellTypes.celltype` reads a variable without a value for numbers of numpy.
  **C150** `QuadraticTriangle.from_TriMesh` calls `TriMesh.coords()` on the class.
* **C151** the activity of points given in `point_fields` is lost: `PolyData` passes no activity and `PointData` sets all points active; names of attributes
  are translated for cells only. `cell_fields={"frames": ...}` is replaced by the frame of the mesh. `frames` of another type, such as a list, are ignored by
  `PolyData`, and then the frame of the mesh too.
* **C152** `PolyData` writes to the dictionaries of the caller: a second mesh made with the same `cell_fields` has the frames of the first, or is a ValueError.
* **C153** keywords `id`, `ndf` are stored under these names, not under those of the columns. Arrays of another length are filtered by `CellData` and then added
  by `AkWrapper` all the same. `activity=True` is ignored.
* **C154** attributes with one number for every point are an AttributeError, since `avg_cell_data` has no value for one axis.
* **C156** cells with three, four and six nodes are always T3, Q4 and W6 in a `PolyData`; tetrahedra with four nodes become quadrilaterals. A `celltype`
  that is given is not checked against the number of nodes.
* **C157** `Grid(eshape=(2, 2))` has cells of the class Q4 with nodes in the order of rows, so that `area` of each is zero; `eshape=(2, 3)` gives wedges in the
  plane. `start` other than zero gives cells with nodes that do not exist.
* **C158** `LineData(areas=1.0)` is an AttributeError; areas in `cell_fields` are replaced by ones.
* **C159** `to_akarray` of a database without rows has no fields, `to_akrecord` has them. Positional arguments of `to_ak`, `to_dataframe` and `to_parquet` go on to
  `to_lists`, which has none.
* **C160** `input_to_mesh(None)` gives a list with an empty list.
* **C161** `center_tri_2d` and `center_tri_3d` truncate the centre for integer coordinates.

## 6. How the log of wrong programs is to be read

Each line of `seeded/LOG.jsonl` is one edit of the model in a scratch copy. The edits were evaluated in one of two ways, given by `method`.

* `all broken lemmas` (596 lines): lemmas whose proof scripts no longer passed were admitted so that the build could go on; `lemmas_broken` lists all of
  them, and `theorems_failed` the theorems for which Print Assumptions then lists one of these lemmas. The list is an upper bound of the theorems that
  the edit makes false.
* `first broken lemma` (770 lines, most after M600): files that mention the edited definition were checked against compiled interfaces until the first proof
  script failed. `lemmas_broken` has only that lemma, nothing was admitted, and `theorems_failed` lists the theorems in whose text, or in that of the lemmas
  they name, the lemma occurs. These theorems were not rebuilt one by one. The list is neither an upper nor a lower bound: other lemmas may be broken as well.

In both cases a broken script shows that the proof no longer goes through. It does not by itself show that a statement is false: a theorem can be listed
because it shares a lemma with another one, and a script can break although the edited program is right.

* `theorems_proved_false`: theorems whose negation was proved in the edited model. This was done for 40 edits (among M324-M373); lines without this field rest on `theorems_failed` alone.
* `claim`: for edits made automatically (among them M1100-M1419) this only names the definition whose results change.
* `note`: where an edit was looked at by hand, among them edits that turned out to change nothing ("no effect" is a judgement by reading, not a proof).
* `not_evaluated` (76 lines, 70 of them automatic edits that Coq rejects as ill-typed or malformed): no theorem was checked, so these lines say nothing about the theorems.
