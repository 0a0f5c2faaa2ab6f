{"id": "C01", "title": "A Time axis is accepted exactly when it is strictly increasing", "statement": "Time(data) succeeds if and only if, after any requested origin / time-zone / displacement shift, the times are strictly increasing (an axis with at most one entry always qualifies); an axis that is not sorted or that contains a repeated time is rejected with TimeSeriesError. When it succeeds the stored times are the given ones all moved by one common amount, so no spacing between entries changes.", "quantifier": "every sequence of times of every length, every origin, tz_offset, new_tz_offset and displacement", "why_tests_cant": "Acceptance depends on the whole sequence; tests only try one sorted, one reversed and one duplicated list.", "anchors": ["gridded/time.py:Time.__init__", "gridded/time.py:Time._timeseries_is_ascending", "gridded/time.py:Time._has_duplicates"]}
{"id": "C02", "title": "Time.index_of returns the bracketing interval", "statement": "For an accepted axis and any time inside it (or any time at all when extrapolate=True) index_of returns the number of axis entries strictly earlier than the query: every earlier entry is < time and the entry at the index (if any) is >= time. On a one-entry axis it is always 0.", "quantifier": "every strictly increasing axis, every query time, both values of extrapolate", "why_tests_cant": "The bisection must be right for every axis and query, including every coincidence with an axis entry.", "anchors": ["gridded/time.py:Time.index_of"]}
{"id": "C03", "title": "Time.interp_alpha reproduces the query time and stays within [0, 1]", "statement": "For every in-range query the alpha is in [0,1], and with i the index returned by index_of (i>=1), t[i-1] + alpha*(t[i]-t[i-1]) equals the query; alpha is 0 at the first entry and exactly 1 at each later entry. The fractional position (0 at the first entry, i-1+alpha after it) is strictly increasing in the query time.", "quantifier": "every strictly increasing axis and every pair of query times in range", "why_tests_cant": "A statement about a real-valued function on all intervals; tests sample 5 points.", "anchors": ["gridded/time.py:Time.interp_alpha", "gridded/time.py:Time.index_of"]}
{"id": "C04", "title": "Out-of-range times raise exactly when they should", "statement": "index_of / interp_alpha raise OutOfTimeRangeError if and only if extrapolate is False, the axis has more than one entry, and the query is before the first or after the last entry. With extrapolate=True the alpha is 0.0 before the first entry and 1.0 after the last; a one-entry axis never raises and always gives alpha 0.0.", "quantifier": "every axis, every query time, both extrapolate flags", "why_tests_cant": "Needs both directions of an iff over all queries.", "anchors": ["gridded/time.py:Time.valid_time", "gridded/time.py:Time.time_in_bounds", "gridded/time.py:Time.index_of", "gridded/time.py:Time.interp_alpha"]}
{"id": "C05", "title": "Re-assigning the time-zone offset never changes the instants", "statement": "After any sequence of numeric tz_offset assignments to a Time with a known offset, local time minus current offset is, entry by entry, the same as at construction; so only the last assignment matters and re-assigning the original offset restores the original data. Assigning to or from a naive (None) offset only relabels: it never moves the data.", "quantifier": "every axis, every starting offset and every finite history of offset assignments (numbers and None)", "why_tests_cant": "A claim about every history of assignments.", "anchors": ["gridded/time.py:Time.tz_offset", "gridded/time.py:Time.__init__"]}
{"id": "C06", "title": "Displacement is applied at most once in any history", "statement": "Over any sequence of displacement assignments the data moves by exactly the first non-None displacement; every later assignment (None included) raises AttributeError and leaves data and displacement unchanged; None assignments before that are no-ops.", "quantifier": "every finite history of displacement assignments, including None", "why_tests_cant": "Quantifies over assignment histories.", "anchors": ["gridded/time.py:Time.displacement"]}
{"id": "C07", "title": "Time objects do not share state", "statement": "Constructing Time(other_time) or Time(ndarray) and then shifting the new object (tz_offset, displacement, origin) leaves the source object / caller's array unchanged.", "quantifier": "every pair of Time objects created from one another and every later assignment", "why_tests_cant": "Aliasing only shows in histories where an object is shared and later mutated.", "anchors": ["gridded/time.py:Time.__init__", "gridded/time.py:Time.tz_offset", "gridded/time.py:Time.displacement"]}
{"id": "C08", "title": "Time equality is an equivalence and equal axes answer alike", "statement": "== on Time objects is reflexive, symmetric and transitive, distinguishes any two axes that differ in an entry, in length or in offset, and two equal Time objects give the same index_of / interp_alpha result (value or error) for every query.", "quantifier": "all pairs / triples of Time objects, all queries", "why_tests_cant": "Laws over all pairs of objects.", "anchors": ["gridded/time.py:Time.__eq__", "gridded/time.py:Time.__ne__"]}
{"id": "C09", "title": "ISO offset strings denote the offset they are given", "statement": "offset_as_iso_string(h) is '' for None and otherwise a sign, hours and minutes such that reading the string back gives the offset again, for every offset that is a whole number of minutes.", "quantifier": "every whole-minute UTC offset (as the float number of hours the library computes from the file)", "why_tests_cant": "Binary rounding of hours*60 is wrong only for particular values; hand-picked tests use whole and half hours.", "anchors": ["gridded/time.py:offset_as_iso_string", "gridded/time.py:parse_time_offset"]}
{"id": "C10", "title": "Interpolation in time is exact at samples and convex in between", "statement": "Variable.at at a sampled time returns that sample's field; at any in-range time between two samples it is v0+(v1-v0)*alpha of the two bracketing fields, hence between them; constant fields stay constant; with extrapolate=True times before/after the axis give the first/last field; out of range without extrapolate raises OutOfTimeRangeError; a single-time variable gives its only field for every time.", "quantifier": "every time axis, every stack of per-time field values and every query time", "why_tests_cant": "Needs all axes, all values and all query times.", "anchors": ["gridded/variable.py:Variable._time_interp", "gridded/variable.py:Variable.at"]}
{"id": "C11", "title": "The result cache of Variable.at is bounded and returns the latest stored result", "statement": "After any history of evaluations the cache of a Variable holds at most 5 results (a VectorVariable at most 9) with no key twice; a lookup returns the result most recently stored under that key if it is present, and otherwise reports a miss; the entry discarded is the oldest inserted.", "quantifier": "every history of lookups and stores with every key sequence", "why_tests_cant": "Eviction bugs appear only after long mixed histories.", "anchors": ["gridded/variable.py:Variable._memoize_result", "gridded/variable.py:Variable._get_memoed", "gridded/variable.py:VectorVariable._memoize_result", "gridded/variable.py:VectorVariable._get_memoed"]}
{"id": "C12", "title": "Caching in Variable.at is transparent", "statement": "For any sequence of at() calls and data assignments on one Variable, each call returns what a call with the cache disabled (_mem=False) would return at that moment.", "quantifier": "every history of at() calls with arbitrary points, times and options, interleaved with data assignments", "why_tests_cant": "Staleness depends on the pair of calls, not on either alone.", "anchors": ["gridded/variable.py:Variable.at", "gridded/variable.py:Variable._get_hash", "gridded/variable.py:Variable.data"]}
{"id": "C13", "title": "Depth interpolation returns the interpolated value at each point", "statement": "Variable.at with a depth axis and level data gives for every unmasked point v[i]+(v[i+1]-v[i])*alpha of its own bracketing levels (the end level's value when the point is extrapolated past an end), and for layer data the value of the layer containing the point; the order of points does not matter.", "quantifier": "every number of points, every assignment of bracketing indices/alphas to them, every data column", "why_tests_cant": "The grouping by unique index interacts across points.", "anchors": ["gridded/variable.py:Variable._depth_interp"]}
{"id": "C14", "title": "Dimension ordering matches the data's rank", "statement": "dimension_ordering, when not overridden, has exactly one name per data dimension, ends with the horizontal dimension(s) of the grid type, keeps time before depth, and never contains time (depth) unless the rank requires it; ranks that cannot be matched raise ValueError.", "quantifier": "every grid kind, every rank, every presence/absence of time and depth", "why_tests_cant": "Case analysis over all combinations; tests cover a few.", "anchors": ["gridded/variable.py:Variable.dimension_ordering"]}
{"id": "C15", "title": "Setting data or time keeps the two consistent", "statement": "After any history of accepted data/time assignments on a Variable with more than one time, the first data dimension has as many entries as the time axis; an assignment that would break this raises ValueError and changes nothing.", "quantifier": "every history of data and time assignments", "why_tests_cant": "History property.", "anchors": ["gridded/variable.py:Variable.time", "gridded/variable.py:Variable.data"]}
{"id": "C16", "title": "Default variable names: first candidate wins", "statement": "Variable's name search returns the first default name present in the file, otherwise the first variable matching the earliest matching standard/long name, otherwise raises ValueError; VectorVariable's search applies the same precedence to whole component groups.", "quantifier": "every list of candidate names and every set of file variables", "why_tests_cant": "Precedence needs all overlaps of candidates and file contents.", "anchors": ["gridded/variable.py:Variable._gen_varname", "gridded/variable.py:VectorVariable._gen_varnames"]}
{"id": "C17", "title": "Assigned faces always index existing nodes", "statement": "After a faces assignment is accepted every face entry is -1 or a valid zero-based node index; one-based input (largest index equal to the node count and none below 1) is shifted to zero-based, zero-based input is stored unchanged; anything with an index above the node count, an index below -1, or a mix of 0 and node-count is rejected with ValueError.", "quantifier": "every node count and every integer face array", "why_tests_cant": "All arrays of all shapes.", "anchors": ["gridded/pyugrid/ugrid.py:UGrid.faces"]}
{"id": "C18", "title": "One-based face arrays are recognised", "statement": "A face array given in one-based numbering is always converted to the zero-based array describing the same triangles.", "quantifier": "every mesh and its one-based face array, including meshes whose last node is used by no face", "why_tests_cant": "The failing case needs a mesh with an unused last node.", "anchors": ["gridded/pyugrid/ugrid.py:UGrid.faces", "gridded/grids.py:Grid_U._find_required_grid_attrs", "gridded/pyugrid/read_netcdf.py:load_grid_from_nc_dataset"]}
{"id": "C19", "title": "Face neighbour table is sound, complete and symmetric", "statement": "build_face_face_connectivity gives for face f and side s the face g across that side: in a mesh where no edge belongs to more than two faces, entry (f,s)=g>=0 exactly when a different face g has an edge with the same two end nodes, entry -1 exactly when no other face has it, and then g lists f in turn.", "quantifier": "every mesh with any number of faces and any node numbering", "why_tests_cant": "Quantifies over all meshes; tests use two fixed meshes.", "anchors": ["gridded/pyugrid/ugrid.py:UGrid.build_face_face_connectivity"]}
{"id": "C20", "title": "build_edges lists every undirected edge exactly once", "statement": "After build_edges the edge list contains no duplicate (in either direction), every edge joins two consecutive nodes of some face, and every side of every face appears.", "quantifier": "every mesh (any number of sides per face)", "why_tests_cant": "Set equality over all meshes.", "anchors": ["gridded/pyugrid/ugrid.py:UGrid.build_edges"]}
{"id": "C21", "title": "build_boundaries lists exactly the sides with no neighbour", "statement": "After build_boundaries on a mesh where no edge is used more than twice, the boundary list is exactly the face sides whose node pair belongs to one face only, each once.", "quantifier": "every mesh", "why_tests_cant": "All meshes.", "anchors": ["gridded/pyugrid/ugrid.py:UGrid.build_boundaries", "gridded/pyugrid/ugrid.py:UGrid.build_face_face_connectivity"]}
{"id": "C22", "title": "Face-edge table points at the face's own edges", "statement": "build_face_edge_connectivity gives for each face side the index of the edge that joins its two nodes.", "quantifier": "every mesh with an edge list containing all face sides", "why_tests_cant": "All meshes and all orders of the edge list.", "anchors": ["gridded/pyugrid/ugrid.py:UGrid.build_face_edge_connectivity"]}
{"id": "C23", "title": "Derived coordinates are the means of their corner nodes", "statement": "build_edge_coordinates / build_face_coordinates / build_boundary_coordinates give for each element the arithmetic mean of its nodes' coordinates; the result lies within their bounding box, moves with a translation of the mesh, and does not depend on the order of the element's nodes.", "quantifier": "every mesh and every real coordinates", "why_tests_cant": "All coordinates.", "anchors": ["gridded/pyugrid/ugrid.py:UGrid.build_face_coordinates", "gridded/pyugrid/ugrid.py:UGrid.build_edge_coordinates", "gridded/pyugrid/ugrid.py:UGrid.build_boundary_coordinates"]}
{"id": "C24", "title": "Triangle interpolation weights are barycentric", "statement": "For every non-degenerate triangle and every point the three interpolation weights sum to 1 and reproduce the point's coordinates; they are all non-negative exactly when the point is in the closed triangle; hence every linear field is interpolated exactly, at a node the node's value is returned, and the interpolated value lies between the smallest and largest corner values.", "quantifier": "every non-degenerate triangle (either orientation), every point, every corner values", "why_tests_cant": "Universally quantified algebra.", "anchors": ["gridded/pyugrid/ugrid.py:UGrid.interpolation_alphas", "gridded/pyugrid/ugrid.py:UGrid.interpolate_var_to_points"]}
{"id": "C25", "title": "Points outside an unstructured grid interpolate to zero", "statement": "interpolate_var_to_points returns one value per query point; points in no face give 0 for node and face data, and points in a face give the face value (face data) or the weighted corner values (node data) of that face only.", "quantifier": "every mesh, data and location result", "why_tests_cant": "All meshes and data.", "anchors": ["gridded/pyugrid/ugrid.py:UGrid.interpolate_var_to_points"]}
{"id": "C26", "title": "The simple point search finds the first containing face", "statement": "locate_faces(method='simple') returns for each point the lowest index of a face containing it, or -1 exactly when no face contains it.", "quantifier": "every mesh and every list of points", "why_tests_cant": "All meshes and points.", "anchors": ["gridded/pyugrid/ugrid.py:UGrid.locate_faces", "gridded/pyugrid/util.py:point_in_tri"]}
{"id": "C27", "title": "Point-in-triangle test does not depend on orientation", "statement": "point_in_tri answers True exactly for points of the closed triangle (within its tolerance), whichever way round the triangle's nodes are listed.", "quantifier": "every non-degenerate triangle in both orientations and every point", "why_tests_cant": "Tests only use counter-clockwise triangles.", "anchors": ["gridded/pyugrid/util.py:point_in_tri", "gridded/pyugrid/util.py:_signed_area_tri"]}
{"id": "C28", "title": "Grid location caches are bounded and consistent", "statement": "After any history of location queries a UGrid keeps at most 6 (an SGrid at most 7) memoised results per table, no key twice, evicting the oldest, and a hit returns what was last stored for that key.", "quantifier": "every history of stores and lookups", "why_tests_cant": "Long histories.", "anchors": ["gridded/pyugrid/ugrid.py:UGrid._add_memo", "gridded/pyugrid/ugrid.py:UGrid._get_memoed", "gridded/pysgrid/sgrid.py:SGrid._add_memo", "gridded/pysgrid/sgrid.py:SGrid._get_memoed"]}
{"id": "C29", "title": "Location answers follow the current mesh", "statement": "After nodes or faces of a UGrid are replaced, locate_faces answers for the new mesh, whatever was asked before.", "quantifier": "every history of location queries and mesh replacements", "why_tests_cant": "Needs query / replace / same query histories.", "anchors": ["gridded/pyugrid/ugrid.py:UGrid.locate_faces", "gridded/pyugrid/ugrid.py:UGrid.faces", "gridded/pyugrid/ugrid.py:UGrid.nodes"]}
{"id": "C30", "title": "locate_faces has a stable result shape", "statement": "Asking twice for the same single point gives the same answer in the same form.", "quantifier": "every point and every number of repeated queries", "why_tests_cant": "The difference only shows on the second query.", "anchors": ["gridded/pyugrid/ugrid.py:UGrid.locate_faces"]}
{"id": "C31", "title": "UGrid location inference agrees with array sizes", "statement": "infer_location returns 'node'/'face'/'boundary' only if the last data dimension equals the number of nodes/faces/boundary segments, prefers node over face over boundary on ties, and returns None exactly when no size matches.", "quantifier": "every mesh sizes and data shapes", "why_tests_cant": "All size coincidences.", "anchors": ["gridded/pyugrid/ugrid.py:UGrid.infer_location"]}
{"id": "C32", "title": "Rectangular-grid cell location brackets the point", "statement": "Grid_R.locate_faces returns for each point inside the grid the cell (i,j) with lon[i]<=x<lon[i+1] and lat[j]<=y<lat[j+1], and (-1,-1) exactly when the point is outside the half-open box; never one index valid and the other -1.", "quantifier": "every pair of strictly increasing axes (>=2 entries) and every point", "why_tests_cant": "All axes and points.", "anchors": ["gridded/grids.py:Grid_R.locate_faces"]}
{"id": "C33", "title": "Rectangular-grid data is matched to its axes", "statement": "Grid_R.lonlat_to_yx pairs the data's last two dimensions with the grid's axes: with declared dimension names the axis order follows the names, without them it follows the lengths, so entry [i][j] always belongs to (first axis[i], second axis[j]); data whose names or lengths do not belong to the grid, and square data without names, raise ValueError.", "quantifier": "every grid, every list of dimension names (or none) and every shape", "why_tests_cant": "All shapes, names and orders.", "anchors": ["gridded/grids.py:Grid_R.lonlat_to_yx"]}
{"id": "C34", "title": "Rectangular-grid centers and inferred location are consistent", "statement": "Grid_R.centers are the midpoints of adjacent axis entries, one fewer than nodes along each axis; infer_location answers node / center / edge exactly according to how the data's last two dimensions compare with the node shape.", "quantifier": "every axes and every data shape", "why_tests_cant": "All shapes.", "anchors": ["gridded/grids.py:Grid_R.centers", "gridded/grids.py:Grid_R.infer_location"]}
{"id": "C35", "title": "Grid class choice follows file and topology contents", "statement": "Grid.from_netCDF picks the grid class determined by the recognised grid-type declarations in the fixed precedence order (explicit type, topology keys, conventions, global attribute, probing), and raises or warns only when nothing matches.", "quantifier": "every combination of declared types, topology keys and file attributes", "why_tests_cant": "Combinatorial decision table.", "anchors": ["gridded/grids.py:Grid._get_grid_type", "gridded/grids.py:Grid.from_netCDF"]}
{"id": "C36", "title": "Flat cell number and (row, column) index are inverse", "statement": "SGrid.locate_faces converts the flat cell number to (row, column): every cell of the grid is reached by exactly one flat number, and row/column are within the cell array.", "quantifier": "every grid size and cell", "why_tests_cant": "All sizes.", "anchors": ["gridded/pysgrid/sgrid.py:SGrid.locate_faces", "gridded/pysgrid/sgrid.py:SGrid.build_celltree"]}
{"id": "C37", "title": "Masked cells are never located and unmasked ones keep their identity", "statement": "After masked cells and unused nodes are removed from the search structure, each remaining face keeps exactly its own four corner coordinates, and the answer for a point found in remaining face k is the original (row, column) of that face; masked cells are never returned; not-found maps to not-found.", "quantifier": "every grid size, every node/cell mask", "why_tests_cant": "All masks: compaction and renumbering are index gymnastics.", "anchors": ["gridded/pysgrid/sgrid.py:SGrid.build_celltree", "gridded/pysgrid/sgrid.py:SGrid.locate_faces"]}
{"id": "C38", "title": "Every mask input can be handled", "statement": "build_celltree with use_mask succeeds for every combination of node and cell masks, including no masked cell at all and only a node mask.", "quantifier": "every pair of optional masks", "why_tests_cant": "The failing combinations are not in the test data.", "anchors": ["gridded/pysgrid/sgrid.py:SGrid.build_celltree"]}
{"id": "C39", "title": "Padding slices and index shifts agree", "statement": "For each staggered location and padding kind, the padding slice of a padded array selects exactly the cells/edges of the node grid, and shifting a cell index by the padding gives the same element of the unpadded array: padded[idx shifted] = padded[slice][idx].", "quantifier": "every node-grid size, every padding kind on each axis, every index", "why_tests_cant": "All sizes and all nine padding combinations.", "anchors": ["gridded/pysgrid/sgrid.py:SGrid.apply_padding_to_idxs", "gridded/pysgrid/sgrid.py:SGrid.get_padding_slices", "gridded/pysgrid/sgrid.py:SGrid.get_padding_by_location"]}
{"id": "C40", "title": "SGrid location inference distinguishes the staggered shapes", "statement": "infer_location returns the location whose shape (node grid, or the stored edge/center coordinate shape) matches the data's last two dimensions and None when none matches.", "quantifier": "every shapes", "why_tests_cant": "All shape coincidences.", "anchors": ["gridded/pysgrid/sgrid.py:SGrid.infer_location"]}
{"id": "C41", "title": "Bilinear interpolation reproduces corners and bilinear fields", "statement": "In every cell the four node weights sum to 1, lie in [0,1] for logical coordinates in the unit square, select a single corner at each corner, so interpolation is exact at nodes, exact for every field bilinear in the logical coordinates, and bounded by the corner values. Edge and centre data use the two-point / one-point analogue.", "quantifier": "every logical coordinates and corner values", "why_tests_cant": "Universally quantified algebra.", "anchors": ["gridded/pysgrid/sgrid.py:SGrid.interpolate_var_to_points"]}
{"id": "C42", "title": "The logical coordinates of a point reproduce the point", "statement": "For a convex quadrilateral cell with corner coordinates (lon,lat), the (l,m) computed for a point map back to the point under the cell's bilinear map, whenever the computation is defined; for parallelogram cells the linear branch is used and is exact.", "quantifier": "every non-degenerate cell and every point", "why_tests_cant": "Nonlinear algebra over all cells.", "anchors": ["gridded/pysgrid/sgrid.py:SGrid._compute_transform_coeffs", "gridded/pysgrid/sgrid.py:SGrid.x_to_l"]}
{"id": "C43", "title": "Logical coordinates are defined for every axis-aligned cell", "statement": "For every rectangular cell and every point in it the logical coordinates are finite and lie in [0,1], whichever grid axis runs east.", "quantifier": "every axis-aligned cell in both orientations", "why_tests_cant": "The test grids all have longitude along the same array axis.", "anchors": ["gridded/pysgrid/sgrid.py:SGrid.x_to_l"]}
{"id": "C44", "title": "geo_to_logical gives the position of the point in index space", "statement": "geo_to_logical returns (row+fraction, column+fraction) such that node points map to their own integer indices and the bilinear map of the returned position is the point.", "quantifier": "every grid and point", "why_tests_cant": "Any test on a symmetric point misses an axis swap.", "anchors": ["gridded/pysgrid/sgrid.py:SGrid.geo_to_logical"]}
{"id": "C45", "title": "Masked corner handling follows the requested mode", "statement": "compute_interpolant: with no masked value all modes agree with the plain weighted sum; 'zero' treats masked values as 0; 'mirror' replaces a masked value of a pair by the negative of the other one (as its docstring says); 'mask' masks exactly the points that use a masked value.", "quantifier": "every value/mask/weight array", "why_tests_cant": "All mask patterns.", "anchors": ["gridded/pysgrid/sgrid.py:SGrid.compute_interpolant", "gridded/pysgrid/sgrid.py:SGrid.mirror_mask_values"]}
{"id": "C46", "title": "Level depth indices bracket the point", "statement": "L_Depth.interpolation_alphas returns for each point within the levels an index i and alpha in [0,1] with depth = L[i]+alpha*(L[i+1]-L[i]), for levels in either direction.", "quantifier": "every strictly monotone level list (either direction, >=2 levels) and every depth", "why_tests_cant": "All axes and depths.", "anchors": ["gridded/depth.py:L_Depth.interpolation_alphas"]}
{"id": "C47", "title": "Points above the surface or below the bottom follow the boundary conditions", "statement": "For every depth outside the levels, 'mask' masks index and alpha, and 'extrapolate' leaves them unmasked with values that select the end level; a point within the levels is never masked; the two conditions act independently on their own side.", "quantifier": "every axis, depth and pair of boundary conditions", "why_tests_cant": "All combinations.", "anchors": ["gridded/depth.py:L_Depth.interpolation_alphas", "gridded/depth.py:S_Depth._apply_boundary_conditions"]}
{"id": "C48", "title": "Sigma depth indices bracket the point in its own profile", "statement": "S_Depth.interpolation_alphas returns for each point inside its water column an index i and alpha in [0,1] with depth = P[i]+alpha*(P[i+1]-P[i]) for that point's own depth profile P, masks points with no profile, and raises ValueError for any other data length than levels or layers.", "quantifier": "every profile (either direction) and every depth", "why_tests_cant": "All profiles and depths.", "anchors": ["gridded/depth.py:S_Depth.interpolation_alphas", "gridded/depth.py:S_Depth._apply_boundary_conditions"]}
{"id": "C49", "title": "Depth profile spans exactly the water column", "statement": "For ROMS (both transforms) and FVCOM, the profile value is 0 at the surface level s=0, bathymetry+zeta at the bottom level s=-1, and is strictly monotone in between when the stretching is monotone and the column has positive thickness.", "quantifier": "every bathymetry, zeta, hc and every monotone stretching", "why_tests_cant": "Universally quantified algebra.", "anchors": ["gridded/depth.py:ROMS_Depth.get_s_coordinate", "gridded/depth.py:FVCOM_Depth.get_s_coordinate", "gridded/depth.py:S_Depth.get_depth_profile"]}
{"id": "C50", "title": "A surface-only depth always selects the surface", "statement": "The base depth class returns the configured surface index and alpha 0, unmasked, for every point; the surface_index requested when building from a file is the one used.", "quantifier": "every number of points and surface index", "why_tests_cant": "All point counts; construction path.", "anchors": ["gridded/depth.py:DepthBase.interpolation_alphas", "gridded/depth.py:DepthBase.from_netCDF"]}
{"id": "C51", "title": "Depth class choice is unambiguous", "statement": "Depth.from_netCDF returns the only depth kind the file supports; if several kinds qualify it raises ValueError, if none qualifies it falls back to a surface-only depth.", "quantifier": "every combination of supported kinds", "why_tests_cant": "Decision table.", "anchors": ["gridded/depth.py:Depth.from_netCDF", "gridded/depth.py:Depth._get_depth_type"]}
{"id": "C52", "title": "Point arrays are normalised to one row per point", "statement": "Any accepted 2-d input is returned as rows of points: an NxK array (K=2 or 3, N>3) unchanged, its transpose transposed back, 1-d pairs/triples as one row; inputs with both dimensions above 3 or 1-d of other lengths raise ValueError; results are idempotent under a second normalisation.", "quantifier": "every array shape and content", "why_tests_cant": "All shapes.", "anchors": ["gridded/utilities.py:_reorganize_spatial_data"]}
{"id": "C53", "title": "Results are aligned with the caller's point layout", "statement": "_align_results_to_spatial_data transposes an N-row result exactly when the caller passed points as columns, keeps the values, and turns an N-vector into an Nx1 column otherwise.", "quantifier": "every points shape and result", "why_tests_cant": "All shapes.", "anchors": ["gridded/utilities.py:_align_results_to_spatial_data"]}
{"id": "C54", "title": "Mask variables convert land to True and water to False", "statement": "convert_mask_to_numpy_mask gives an array of the same shape in which a value is False exactly if its (last) flag meaning contains water or lake (in any letter case), values with no flag stay True; for the option_0 style 1 is water and everything else land; otherwise values are taken as they are.", "quantifier": "every flag table and every mask array", "why_tests_cant": "All flag tables.", "anchors": ["gridded/utilities.py:convert_mask_to_numpy_mask"]}
{"id": "C55", "title": "File-variable search precedence", "statement": "search_netcdf_vars returns for every wanted role: the long/standard-name match in the data file, else the variable-name match there, else the same in the grid file, else None; roles never disappear and nothing outside the wanted roles appears; can_create_class is True exactly if no role is None.", "quantifier": "every pair of files and role tables", "why_tests_cant": "All overlaps.", "anchors": ["gridded/utilities.py:search_netcdf_vars", "gridded/utilities.py:merge_var_search_dicts", "gridded/utilities.py:search_dataset_for_variables_by_longname", "gridded/utilities.py:search_dataset_for_variables_by_varname", "gridded/utilities.py:can_create_class"]}
{"id": "C56", "title": "Filename/dataset arguments resolve consistently", "statement": "parse_filename_dataset_args: a dataset, when given, is the data source; the grid source is grid_file/filename if given, else the same dataset; without a dataset, equal files give the same object for both.", "quantifier": "every combination of the four arguments", "why_tests_cant": "Decision table.", "anchors": ["gridded/utilities.py:parse_filename_dataset_args", "gridded/utilities.py:get_dataset"]}
{"id": "C57", "title": "Boundary segments are chained into closed loops", "statement": "order_boundary_segments partitions the given segments: every input segment appears in exactly one returned loop or chain (as consecutive points), no segment is invented, and for boundaries made of disjoint closed loops all come back as closed loops with no open chains.", "quantifier": "every list of segments in which each point has at most two segments, in any order and direction", "why_tests_cant": "All segment orders and directions.", "anchors": ["gridded/io/verdat.py:order_boundary_segments"]}
{"id": "C58", "title": "Verdat save/load round trip", "statement": "Loading a saved dataset gives the same points with their depths (boundary points first, in loop order), and boundary segments that describe the same closed loops.", "quantifier": "every mesh whose boundary is a set of disjoint closed loops", "why_tests_cant": "All meshes.", "anchors": ["gridded/io/verdat.py:save_verdat", "gridded/io/verdat.py:load_verdat"]}
{"id": "C59", "title": "UGRID file index conventions round trip", "statement": "Loading connectivity written with any start_index gives zero-based indices equal to the original, with flag values preserved; a Fortran-ordered array is transposed back.", "quantifier": "every connectivity array, start index and flag", "why_tests_cant": "All arrays.", "anchors": ["gridded/pyugrid/read_netcdf.py:load_grid_from_nc_dataset", "gridded/pyugrid/ugrid.py:UGrid.save"]}
{"id": "C60", "title": "SGRID padding and axes attributes parse faithfully", "statement": "parse_padding recovers, in order, exactly the (face dim, node dim, padding) triples written in the attribute, and raises ValueError when there are none; parse_axes recovers each axis' coordinate name.", "quantifier": "every list of triples / axes with legal names", "why_tests_cant": "All attribute strings.", "anchors": ["gridded/pysgrid/read_netcdf.py:parse_padding", "gridded/pysgrid/read_netcdf.py:parse_axes"]}
{"id": "C61", "title": "Vectors keep their length under rotation and cell averaging is exact", "statement": "rotate_vectors preserves the magnitude given by vector_sum, rotating back by the opposite angle restores the vector, rotations compose; avg_to_cell_center gives one entry fewer along the averaged axis, each the mean of the two neighbours.", "quantifier": "every array and angle", "why_tests_cant": "All angles.", "anchors": ["gridded/pysgrid/processing_2d.py:rotate_vectors", "gridded/pysgrid/processing_2d.py:vector_sum", "gridded/pysgrid/processing_2d.py:avg_to_cell_center"]}
{"id": "C62", "title": "Ray-casting point-in-polygon is independent of vertex start and direction", "statement": "points_in_polys gives the same answer for every rotation and for the reversal of a polygon's vertex list, for every translation, and for a triangle is True for every interior point and False for every exterior point.", "quantifier": "every polygon and point", "why_tests_cant": "All polygons.", "anchors": ["gridded/pysgrid/utils.py:points_in_polys"]}
{"id": "C63", "title": "Item cache of SGridVariable/UVar is bounded", "statement": "After any history of indexing the item cache holds at most 3 entries and each answer equals indexing the data it was filled from; after the data is replaced indexing answers from the new data.", "quantifier": "every history of indexing and data replacement", "why_tests_cant": "History property.", "anchors": ["gridded/pysgrid/variables.py:SGridVariable.__getitem__", "gridded/pyugrid/uvar.py:UVar.__getitem__", "gridded/pyugrid/uvar.py:UVar.data"]}
{"id": "C64", "title": "Loading level depths puts the shallowest level at the surface and keeps the axis usable", "statement": "L_Depth.from_netCDF sets the shallowest level to depth 0, leaves every other level as in the file, and the resulting axis is still strictly monotone in the same direction.", "quantifier": "every strictly monotone level list, in either direction and either sign convention", "why_tests_cant": "The effect depends on where the minimum lies and on the sign convention of the file; tests use one positive-down list.", "anchors": ["gridded/depth.py:L_Depth.from_netCDF"]}
{"id": "C65", "title": "Rectangular-grid interpolation is bilinear in either orientation", "statement": "Grid_R.interpolate_var_to_points returns one value per point: inside the grid the bilinear interpolation of the surrounding cell (exact on fields a*lat+b*lon+c*lat*lon+d, the entry itself at a node, between the extreme entries), outside 0; the answer does not depend on whether the data is stored lat-lon or lon-lat nor on the direction of the axes, and masked entries do not influence it.", "quantifier": "every pair of strictly monotone axes, every data table and every point", "why_tests_cant": "All axes, tables, orientations and points.", "anchors": ["gridded/grids.py:Grid_R.interpolate_var_to_points", "gridded/grids.py:Grid_R.lonlat_to_yx"]}
{"id": "C66", "title": "Grid arguments are found by name and normalised", "statement": "The _find_required_grid_attrs methods take the node coordinates from the first recognised pair of names (case-insensitive), the face array from the first recognised name, the staggered coordinates and masks likewise, or else exactly the variables an explicit grid_topology names; a face array stored node-major is transposed, a one-based one made zero-based, any other left as it is; the returned topology names only variables of the file; if nothing is found, ValueError.", "quantifier": "every file (set of variables, names in any case) and every topology dictionary", "why_tests_cant": "All combinations of names and all face arrays.", "anchors": ["gridded/grids.py:GridBase._find_required_grid_attrs", "gridded/grids.py:Grid_U._find_required_grid_attrs", "gridded/grids.py:Grid_S._find_required_grid_attrs", "gridded/grids.py:Grid_R._find_required_grid_attrs"]}
{"id": "C67", "title": "A cell search does not depend on earlier searches", "statement": "Every locate_faces call on a structured grid answers as if it were the first call on that grid: neither the result cache nor the cell tree kept from an earlier call changes the value or the shape of the answer, and the cache stays bounded.", "quantifier": "every history of calls with single points or arrays, with and without the cache and the mask", "why_tests_cant": "the difference shows only for particular call histories", "anchors": ["gridded/pysgrid/sgrid.py:SGrid.locate_faces", "gridded/pysgrid/sgrid.py:SGrid._add_memo", "gridded/pysgrid/sgrid.py:SGrid._get_memoed"]}
{"id": "C68", "title": "Cell-centred bathymetry is averaged to the nodes", "statement": "When bathymetry (or zeta) is given at the cell centers, S_Depth.from_netCDF replaces it by an array with one row and one column fewer in which every entry is the mean of the four surrounding cells, lies between their bounds, and has the shape of the grid's nodes.", "quantifier": "every array of cell values, masked or not, and every grid shape", "why_tests_cant": "All shapes and values, and both paddings for which the location is inferred as center.", "anchors": ["gridded/depth.py:S_Depth.from_netCDF"]}
{"id": "C69", "title": "SGRID coordinate and mask discovery", "statement": "find_grid_topology_var names the one topology variable of dimension 2 and raises ValueError otherwise; the node coordinates found are variables of the file on exactly the node dimensions, named like longitude and latitude, and are found whenever the file has one of each; coordinates inferred by location come from the variable carrying that location; each mask is the first mask variable of the location's shape.", "quantifier": "every set of file variables, dimensions and attributes", "why_tests_cant": "All files.", "anchors": ["gridded/pysgrid/read_netcdf.py:find_grid_topology_var", "gridded/pysgrid/read_netcdf.py:NetCDFDataset.find_node_coordinates", "gridded/pysgrid/read_netcdf.py:NetCDFDataset.find_coordinates_by_location", "gridded/pysgrid/sgrid.py:SGridAttributes.get_masks"]}
{"id": "C70", "title": "SGRID variable slicing, axes and location", "statement": "create_variable slices each dimension by the padding declared for it and leaves the others whole, so that a padded dimension is cut back to the number of cells; the averaging axes and the location (face, edge1, edge2) follow from the dimensions the variable shares with faces, edges and nodes; loading succeeds for every conforming file.", "quantifier": "every variable, dimension list and padding declaration", "why_tests_cant": "All dimension layouts.", "anchors": ["gridded/pysgrid/utils.py:determine_variable_slicing", "gridded/pysgrid/utils.py:infer_avg_axes", "gridded/pysgrid/utils.py:infer_variable_location", "gridded/pysgrid/variables.py:SGridVariable.create_variable", "gridded/pysgrid/sgrid.py:SGrid.all_padding"]}
{"id": "C71", "title": "UGRID mesh discovery and save/load round trip", "statement": "A mesh is found exactly when one variable (or the named one) is a mesh topology of dimension 1 or 2; each coordinate array puts the longitudes in column 0 and the latitudes in column 1 whatever the order of the names; a grid written by UGrid.save and read back has the same mesh name, nodes, faces, edges, boundaries and representative coordinates, and the failures are ValueErrors.", "quantifier": "every file, mesh and grid", "why_tests_cant": "All meshes and attribute layouts.", "anchors": ["gridded/pyugrid/read_netcdf.py:find_mesh_names", "gridded/pyugrid/read_netcdf.py:is_valid_mesh", "gridded/pyugrid/read_netcdf.py:load_grid_from_nc_dataset", "gridded/pyugrid/ugrid.py:UGrid.save"]}
{"id": "C72", "title": "A vector's values are the columns of its components", "statement": "VectorVariable.at answers with one column per component, in the order of the components, each being that component's own answer for the same points and time; an exception is that of the first component that fails; its cache never holds more than nine answers and never changes an answer.", "quantifier": "every history of queries of the vector and of its components and of assignments to their data, with and without _mem", "why_tests_cant": "interleavings of queries that share caches are unbounded", "anchors": ["gridded/variable.py:VectorVariable.at", "gridded/variable.py:VectorVariable._memoize_result", "gridded/variable.py:VectorVariable._get_memoed"]}
{"id": "C73", "title": "Callers cannot change cached answers", "statement": "Whatever a caller writes into the arrays returned by at, later answers of at are what was computed: the vector works with copies, the single variable hands out read-only arrays.", "quantifier": "every history of calls and of writes (numbers or masking) to the returned arrays", "why_tests_cant": "aliasing faults show only for particular histories of calls and writes", "anchors": ["gridded/variable.py:Variable._memoize_result", "gridded/variable.py:Variable._get_memoed", "gridded/variable.py:VectorVariable._memoize_result", "gridded/variable.py:VectorVariable._get_memoed"]}
{"id": "C74", "title": "Components, time and units of a vector stay consistent", "statement": "A VectorVariable has two or more components (ValueError otherwise) and its time and units agree with theirs: assigning a time (object or sequence) changes the vector and all components or nothing, assigning units reaches all components, and reading units gives what was assigned (a single unit for a list of equal ones).", "quantifier": "every list of components, time argument and unit", "why_tests_cant": "all component shapes, times and unit strings", "anchors": ["gridded/variable.py:VectorVariable.__init__", "gridded/variable.py:VectorVariable.time", "gridded/variable.py:VectorVariable.units", "gridded/variable.py:VectorVariable.save"]}
{"id": "C75", "title": "Times read from a file are the file's instants", "statement": "A time axis read from a file (Time.from_netCDF) denotes the instants its values and units describe, whatever offset the units carry; a given tz_offset is that of the clock readings, a given new_tz_offset changes readings but not instants, 'naive' drops the offset, and the offset's name is the one in the units, its ISO text, or the given one. Missing units, units without 'since' or unknown units raise.", "quantifier": "every time variable, every parser for dates and units, every combination of arguments", "why_tests_cant": "all values, unit texts, offsets and argument combinations", "anchors": ["gridded/time.py:parse_time_offset", "gridded/time.py:Time.from_netCDF"]}
{"id": "C76", "title": "A data variable finds its time axis", "statement": "The time axis of a data variable is named by its time attribute when that is a dimension of the file, else by its first dimension when the name contains 'time', and is otherwise the constant time; reading by variable, by variable name or by axis name agree; the constant time always has one value, unaffected by other users.", "quantifier": "every file, variable and history of uses of the constant time", "why_tests_cant": "all dimension names and attributes; histories sharing one object", "anchors": ["gridded/time.py:Time.locate_time_var_from_var", "gridded/time.py:Time.from_netCDF", "gridded/time.py:Time.constant_time"]}
{"id": "C77", "title": "A variable loaded from a file has the right place, time and depth", "statement": "Variable.from_netCDF gives a variable whose location is valid and is the given one, else the file's, else the one the grid infers; whose time is the given one, else the axis of the variable, else the present, and fits the first dimension; which has a depth axis exactly when there is a dimension besides time and the horizontal ones; and default names are never given twice.", "quantifier": "every file, grid class, inference function, date and unit parser, and combination of arguments", "why_tests_cant": "all combinations of dimensions, attributes and arguments", "anchors": ["gridded/variable.py:Variable.from_netCDF", "gridded/variable.py:Variable.__init__", "gridded/variable.py:Variable.location", "gridded/variable.py:Variable.data", "gridded/variable.py:Variable.time"]}
{"id": "C78", "title": "A dataset holds exactly the file's data variables", "statement": "Dataset loading gives every variable of the file that does not belong to the grid and has a location, under its name in the file and in the order of the file, and nothing else; variables unrelated to the grid do no harm; get_variables_by_attribute gives exactly the variables with the value.", "quantifier": "every file and grid", "why_tests_cant": "all files, names and topology texts", "anchors": ["gridded/gridded.py:Dataset._variables_from_netCDF", "gridded/gridded.py:Dataset.get_variables_by_attribute"]}
{"id": "C79", "title": "A saved dataset reads back", "statement": "Dataset.save followed by loading gives the grid and the data variables back: each under its name, at its place, with its values, name and attributes; what cannot be written is refused, with the error that fits.", "quantifier": "every unstructured grid, set of variables, set of attributes, and format", "why_tests_cant": "all names, attributes and topologies", "anchors": ["gridded/gridded.py:Dataset.save", "gridded/pyugrid/ugrid.py:UGrid.save", "gridded/pyugrid/ugrid.py:UGrid._save_variables", "gridded/gridded.py:Dataset._init_from_netCDF"]}
{"id": "C80", "title": "Nearest-point lookups give nearest points and their values", "statement": "SGrid.locate_nearest and UGrid.locate_nodes give, for every point, a grid point that no other is closer than; get_efficient_slice gives the least slices that hold every index with its corners; nearest_var_to_points gives the variable's value at the nearest point.", "quantifier": "every grid, set of points, variable, location, and correct point-search tree", "why_tests_cant": "all grids, points and histories", "anchors": ["gridded/pysgrid/sgrid.py:SGrid.locate_nearest", "gridded/pysgrid/sgrid.py:SGrid.build_kdtree", "gridded/pysgrid/sgrid.py:SGrid.get_efficient_slice", "gridded/pysgrid/sgrid.py:SGrid.nearest_var_to_points", "gridded/pysgrid/sgrid.py:SGrid._get_grid_vars", "gridded/pyugrid/ugrid.py:UGrid.locate_nodes"]}
{"id": "C81", "title": "A staggered grid comes back from the file it was saved to", "statement": "SGrid.save_as_netcdf writes a file from which load_grid makes a grid with the same dimensions, paddings, coordinate names, node and center coordinates, angles and variable descriptions.", "quantifier": "every well-formed SGRID file with face and node coordinates that loads, of any dimensions and variables", "why_tests_cant": "all files, names, shapes and values", "anchors": ["gridded/pysgrid/sgrid.py:SGrid.load_grid", "gridded/pysgrid/sgrid.py:SGrid.save_as_netcdf", "gridded/pysgrid/sgrid.py:SGrid._save_common_components", "gridded/pysgrid/sgrid.py:SGridAttributes", "gridded/pysgrid/sgrid.py:load_grid"]}
{"id": "C82", "title": "Equality of grids is an equivalence and equal meshes answer alike", "statement": "== of two UGrid or SGrid objects is true exactly for one object or objects of one class with the same compared arrays; it is reflexive, symmetric and transitive, and equal meshes locate points and derive topology alike.", "quantifier": "all pairs and triples of grids, with any arrays in their attributes", "why_tests_cant": "all pairs of grids", "anchors": ["gridded/pyugrid/ugrid.py:UGrid.__eq__", "gridded/pysgrid/sgrid.py:SGrid.__eq__", "gridded/pysgrid/sgrid.py:SGrid.face_padding"]}
{"id": "C83", "title": "Computed grid angles are directions on the sphere", "statement": "calculate_bearing gives the direction, clockwise from north, in which the second point of the sphere is seen from the first, between 0 and 360 degrees; calculate_angle_from_true_east the same counted from east, one angle per cell, so that rotate_vectors turns a vector along the row into its eastward and northward parts.", "quantifier": "all points (longitude, latitude), all rows of cell centers", "why_tests_cant": "all real coordinates", "anchors": ["gridded/pysgrid/utils.py:calculate_bearing", "gridded/pysgrid/utils.py:calculate_angle_from_true_east", "gridded/pysgrid/utils.py:pair_arrays", "gridded/pysgrid/sgrid.py:SGridAttributes.get_angles"]}
{"id": "C84", "title": "Regridding reads the source at every point of the new grid", "statement": "regrid_variable gives a variable on the new grid whose value at every instant, level and node is the source's value at that node, at the depth of that level and at that instant, masked where the source has none; a destination that does not overlap the source is refused with ValueError.", "quantifier": "all sources, destination grids, times and depth profiles", "why_tests_cant": "the one test checks the shape of one result", "anchors": ["gridded/utilities.py:regrid_variable", "gridded/utilities.py:_regrid_s_depth"]}
{"id": "C85", "title": "A vector variable is loaded as its components", "statement": "VectorVariable.from_netCDF gives a vector whose i-th component is the i-th named (or found) variable of the file, as Variable.from_netCDF would load it, with the vector's time, depth and units; missing components are refused.", "quantifier": "all files, grids, lists of names and arguments", "why_tests_cant": "all files and combinations of arguments", "anchors": ["gridded/variable.py:VectorVariable.from_netCDF", "gridded/variable.py:VectorVariable.__init__", "gridded/variable.py:VectorVariable._gen_varnames"]}
{"id": "C86", "title": "The constant variable is constant everywhere", "statement": "Variable.constant(value) answers value at every point and time: inside the box of its grid always, outside it when a filled array is asked for, after any history of requests.", "quantifier": "every value, every list of points, every time and history of requests, every cell search that answers a cell containing the point", "why_tests_cant": "all real values and points; histories of requests", "anchors": ["gridded/variable.py:Variable.constant", "gridded/variable.py:Variable.at", "gridded/variable.py:Variable._memoize_result", "gridded/pysgrid/sgrid.py:SGrid.interpolate_var_to_points"]}
{"id": "C87", "title": "Depth variables are found in ROMS, FVCOM and level files", "statement": "In a file that names and labels its variables by the conventions of ROMS or FVCOM, or that holds depth levels, the search of the depth classes finds for each role the variable of that role, and looks for nothing else.", "quantifier": "every file, every role of the three classes", "why_tests_cant": "all files: which variables carry which labels, in every order", "anchors": ["gridded/depth.py:ROMS_Depth", "gridded/depth.py:FVCOM_Depth", "gridded/depth.py:L_Depth", "gridded/utilities.py:search_netcdf_vars"]}
{"id": "C88", "title": "Sigma depths are loaded with time, bathymetry and free surface on nodes", "statement": "S_Depth.from_netCDF of a subclass takes each component from the argument when given and else from the variable found; bathymetry and zeta end up on nodes, averaged from the cells around when they are not there; without zeta the surface is zero; terms not given are those found.", "quantifier": "every grid (structured, mesh or rectangular), every set of found variables and their shapes, every combination of arguments", "why_tests_cant": "all combinations of arguments, places and shapes", "anchors": ["gridded/depth.py:S_Depth.from_netCDF", "gridded/depth.py:S_Depth.__init__"]}
{"id": "C89", "title": "A mesh loaded by variable names is the mesh in the file", "statement": "load_from_varnames returns the nodes, faces, neighbours, face centers and boundaries stored in the variables that the mapping names, with faces as rows and numbers counted from zero, whichever order and base the file uses; a file without the expected attributes or variables is refused.", "quantifier": "every file, every mapping, every list of expected attributes", "why_tests_cant": "all meshes in both orders and both bases, and all subsets of optional roles", "anchors": ["gridded/pyugrid/grid_io/utils.py:load_from_varnames"]}
{"id": "C90", "title": "Grid drawings show the sides of the grid and nothing else", "statement": "plot_ugrid hands the faces of the mesh and its boundaries to be drawn; plot_sgrid draws lines that join neighbouring nodes, each pair by one line; the inspector's wireframe holds each side of the triangles once, at longitudes up to 180.", "quantifier": "every mesh and every structured grid", "why_tests_cant": "all meshes and grid sizes; a wrong drawing raises nothing", "anchors": ["gridded/plotting/mpl_plotting.py:plot_ugrid", "gridded/plotting/mpl_plotting.py:plot_sgrid", "gridded/plotting/mpl_plotting.py:GridGeoGenerator.get_triangle_faces", "gridded/plotting/mpl_plotting.py:GridGeoGenerator.gen_grid_lines_U"]}
{"id": "C91", "title": "A click on the map finds the face drawn there", "statement": "The inspector's extent holds every node of the map, and its query reports a face exactly when the point lies in a face as drawn, with the nodes of the face and their places on the map.", "quantifier": "every mesh of triangles, every point of the map, both longitude conventions", "why_tests_cant": "all points and meshes in both conventions, including both sides of the 180th meridian", "anchors": ["gridded/plotting/mpl_plotting.py:GridGeoGenerator.get_max_extent", "gridded/plotting/mpl_plotting.py:GridGeoGenerator.fvcom_index_query"]}
{"id": "C92", "title": "Loading a staggered grid keeps its parts whatever the variables are called", "statement": "After a staggered grid is loaded, each variable of the file is an attribute of the grid under its own name, the parts and methods of the grid are unchanged, and the lists of grid and other variables divide the variables by their grid attribute.", "quantifier": "every list of variables with any names, every grid object, both grid classes", "why_tests_cant": "variable names are arbitrary text; a collision raises nothing and shows only where the part is used", "anchors": ["gridded/pysgrid/sgrid.py:SGridAttributes.get_variable_attributes", "gridded/pysgrid/sgrid.py:SGrid.non_grid_variables", "gridded/pysgrid/sgrid.py:SGrid.__init__"]}
{"id": "C93", "title": "A dataset holds the parts it was made of or read from its file", "statement": "Dataset(parts) holds exactly the parts given, with new empty dicts for those left out; from_netCDF and Dataset(file) hold the grid, the variables and the attributes of the file; items are the variables; datasets do not see each other's changes.", "quantifier": "every combination of arguments, every file and every state of the caller's dicts", "why_tests_cant": "sharing between objects shows only after later changes, and all argument combinations are covered", "anchors": ["gridded/gridded.py:Dataset.__init__", "gridded/gridded.py:Dataset._init_from_netCDF", "gridded/gridded.py:Dataset.from_netCDF", "gridded/gridded.py:Dataset.__getitem__"]}
{"id": "C94", "title": "A variable holding samples of a field answers with that field", "statement": "When the data of a variable are samples of a field that is linear between neighbouring times and levels and, over the grid, linear on triangles (node data), constant on faces (face data) or bilinear on cells (rectangular grid), Variable.at returns the value of that field at every time, depth and place asked, and 0 outside the grid.", "quantifier": "every field, time axis, set of levels, mesh or pair of axes, list of points, history of earlier questions to the grid and sequence of cached requests", "why_tests_cant": "the time, depth and grid interpolations are composed for all inputs at once; index mistakes between the layers show only at particular samples", "anchors": ["gridded/variable.py:Variable.at", "gridded/variable.py:Variable._time_interp", "gridded/variable.py:Variable._depth_interp", "gridded/variable.py:Variable._xy_interp", "gridded/pyugrid/ugrid.py:UGrid.interpolate_var_to_points", "gridded/grids.py:Grid_R.interpolate_var_to_points"]}
{"id": "C95", "title": "A depth object has the settings it was given", "statement": "The constructors of the depth classes store every setting under its attribute with the documented defaults and make every term an attribute; they refuse missing terms; surface and bottom index are the first shallowest and deepest entries and the numbers of levels and layers are those of the coordinates; the condition used at the surface and the bottom is the one given.", "quantifier": "every class, every combination of keyword arguments and every dict of terms", "why_tests_cant": "unknown keywords are accepted without notice, so a setting that is lost raises nothing; combinations are unbounded", "anchors": ["gridded/depth.py:DepthBase.__init__", "gridded/depth.py:L_Depth.__init__", "gridded/depth.py:S_Depth.__init__", "gridded/depth.py:L_Depth.surface_index", "gridded/depth.py:ROMS_Depth.surface_index", "gridded/depth.py:FVCOM_Depth.surface_index", "gridded/depth.py:DepthBase._gen_varname"]}
{"id": "C96", "title": "Objects made without a name get different names", "statement": "Grids, variables, vector variables and sigma depths made without a name get the name of their class and a number; within a process, no two objects made without a name have the same name, names given are kept, and the number is that of the class's counter plus the objects counted since.", "quantifier": "every history of object constructions, any classes, any tree of subclasses and any initial counters", "why_tests_cant": "whether two names collide depends on the whole history of constructions in the process and on which class in the hierarchy holds the counter", "anchors": ["gridded/grids.py:GridBase.__init__", "gridded/variable.py:Variable.from_netCDF", "gridded/variable.py:VectorVariable.from_netCDF", "gridded/depth.py:S_Depth.from_netCDF", "gridded/depth.py:L_Depth.from_netCDF"]}
{"id": "C97", "title": "A variable on terrain-following levels answers from the water column at the point", "statement": "For a variable on sigma levels over a triangle mesh, at() builds the water column of each point from the bathymetry, the free surface and the sigmas interpolated there, and answers with the value interpolated between the two levels around the depth; above the surface the boundary condition decides, below the bottom the answer is masked; layer data shows the layer that holds the point.", "quantifier": "every mesh, depth object, free surface over time or constant, data on levels or layers with or without time, boundary conditions, times and lists of points", "why_tests_cant": "the answer composes the cell tree, three interpolations on the mesh, two time interpolations, the depth search and the level blend, each with its own masks, for any number of levels and points", "anchors": ["gridded/depth.py:S_Depth.interpolation_alphas", "gridded/depth.py:S_Depth.get_depth_profile", "gridded/depth.py:FVCOM_Depth.get_s_coordinate", "gridded/variable.py:Variable.at", "gridded/variable.py:Variable._depth_interp", "gridded/pyugrid/ugrid.py:UGrid.interpolate_var_to_points"]}
{"id": "C98", "title": "A variable on a staggered grid answers from the data of its location at the time and depth asked", "statement": "at() on a staggered grid answers every point with the grid's interpolation (nodes bilinear, edges linear across the cell, centers constant) of the data of the time asked and the depth asked, linearly blended in time and between levels; layer data shows the layer that holds the point; node data that samples a field bilinear in the cells is answered exactly and points outside are masked.", "quantifier": "every curvilinear grid and padding, location, data with or without time and depth axes, land mask, monotone levels, boundary conditions, times and lists of points", "why_tests_cant": "the answer composes the cell tree, the interpolation of each location, the time blend, the depth search and the level blend with arrays of two shapes, for any number of points, levels and times", "anchors": ["gridded/variable.py:Variable.at", "gridded/variable.py:Variable._depth_interp", "gridded/variable.py:Variable._time_interp", "gridded/pysgrid/sgrid.py:SGrid.interpolate_var_to_points", "gridded/depth.py:L_Depth.interpolation_alphas"]}
{"id": "C99", "title": "A variable on ROMS levels over a staggered grid answers from the water column over each point", "statement": "For a variable on the terrain-following levels of ROMS, at() finds the point in the water column computed from the bathymetry and free surface interpolated to the point at the time asked, and answers the grid's interpolation of the data blended between the two levels around it (or of the layer that holds it, for layer data); points without water, below the bottom or above the surface are masked; a stretching curve from -1 to 0 gives a column from the depth of the water to 0; fields linear in depth and bilinear in the cells are answered exactly.", "quantifier": "every curvilinear grid, padding and location, both vertical transformations, stretching curves, bathymetry and free surface, data with or without a time axis, boundary conditions, times and lists of points", "why_tests_cant": "the column is different at every point and time and composes two interpolations with a nonlinear transformation and a search before the interpolation of the data itself", "anchors": ["gridded/depth.py:ROMS_Depth.get_s_coordinate", "gridded/depth.py:S_Depth.interpolation_alphas", "gridded/variable.py:Variable.at", "gridded/variable.py:Variable._depth_interp", "gridded/pysgrid/sgrid.py:SGrid.interpolate_var_to_points"]}
{"id": "C100", "title": "The inspector window highlights the last selection and records every one", "statement": "The inspector opens exactly for meshes of triangles, starting its log anew beside the file and never over it. After any sequence of clicks, each left click on a face has been highlighted in place of the previous selection (patch, corner dots, badges, callout) and recorded as one row, in order, with the face, its middle and its nodes under the right headings; other clicks change nothing and no click raises unless the disk does.", "quantifier": "every mesh, cell search within the faces, spill position and sequence of clicks, with the disk failing at any of them", "why_tests_cant": "the window is driven by unbounded histories of clicks whose removals refer to objects created by earlier ones; tests click a few times on one mesh", "anchors": ["gridded/plotting/mpl_plotting.py:PureMatplotlibFVCOMViewer.__init__", "gridded/plotting/mpl_plotting.py:PureMatplotlibFVCOMViewer.on_click", "gridded/plotting/mpl_plotting.py:PureMatplotlibFVCOMViewer.draw_query_result", "gridded/plotting/mpl_plotting.py:PureMatplotlibFVCOMViewer.init_csv_file", "gridded/plotting/mpl_plotting.py:GridGeoGenerator.draw_grid_lines"]}
{"id": "C101", "title": "Currents on a staggered grid do not jump across the sides of cells, nor flow through coasts", "statement": "A vector whose components sit on the two kinds of cell sides answers, in every history of cached queries, each speed changing linearly from one side of the cell to the opposite one, at the time asked and at the depth of the point (on levels or in the water column of ROMS). The speed through a side is the same seen from both cells and zero on a coast; through every rectangle inside a cell flows its share of what leaves the cell; queries outside the times are refused and change nothing.", "quantifier": "every staggered grid, padding, land mask, pair of data arrays linear in time and depth, and history of queries of the vector and its components", "why_tests_cant": "the answer goes through two caches, time, depth, the padding of two kinds of sides and the land mask; tests check a few points of one file and never a history", "anchors": ["gridded/variable.py:VectorVariable.at", "gridded/variable.py:Variable.at", "gridded/pysgrid/sgrid.py:SGrid.interpolate_var_to_points", "gridded/depth.py:ROMS_Depth.get_s_coordinate"]}
{"id": "C102", "title": "A file with a mesh, opened, answers with the field it samples", "statement": "When a file holds a UGRID triangle mesh (two coordinate variables, an index table by rows or columns from any start index), a time axis in any zone, possibly levels, and a variable on nodes or faces, then the dataset that opens it has exactly that mesh, has the variable at its place with the instants of its samples, and every question (and every history of cached questions) to the variable is answered by the field that the file samples: linear over the triangle that holds the point, between the two instants and between the two levels, and 0 outside the mesh.", "quantifier": "every such file, whatever else is in it, every field, every history of questions inside the times and levels", "why_tests_cant": "the answer depends on the grid factory, the mesh reader, the name search, the time and depth loaders, the dimension ordering and the interpolation together; tests open a few sample files and compare shapes or single values", "anchors": ["gridded/gridded.py:Dataset.__init__", "gridded/grids.py:Grid.from_netCDF", "gridded/pyugrid/read_netcdf.py:load_grid_from_nc_dataset", "gridded/depth.py:Depth.from_netCDF", "gridded/variable.py:Variable.from_netCDF", "gridded/variable.py:Variable.at"]}
{"id": "C103", "title": "A grid object keeps its own tables", "statement": "However many grid objects a program makes, edits and deletes tables of, each object shows what its own constructor and its own assignments give, as if every array had been copied when handed over: it does not change when another grid is made or assigned to, the caller's arrays do not change, a constructor or assignment that raises leaves everything as it was, and the tables always fit the nodes and faces (indices in range, tables about faces shaped like them). Deleting nodes or faces takes everything that depends on them away and nothing else; the lines are the segments of the edges.", "quantifier": "every program of constructions, assignments, deletions, builds and edits by the caller, over any number of grids and arrays", "why_tests_cant": "aliasing shows only when the same array reaches two holders in a particular order; tests construct each grid from fresh literals", "anchors": ["gridded/pyugrid/ugrid.py:UGrid.__init__", "gridded/pyugrid/ugrid.py:UGrid.faces", "gridded/pyugrid/ugrid.py:UGrid.nodes", "gridded/pyugrid/ugrid.py:UGrid.edges", "gridded/pyugrid/ugrid.py:UGrid.get_lines"]}
{"id": "C104", "title": "A file with a regular grid answers with the field it samples", "statement": "A file with a longitude axis and a latitude axis, and variables over time, depth levels and those axes, opens, with those axes for its grid and each variable at its place with the instants of its samples; and every question to a variable is answered with the sampled field inside the axes and with zero outside, whichever of the two axes comes first in the data, however often the question is asked. Variables that are not on the grid are left out and do no harm.", "quantifier": "every file with such axes, every variable over them, every bilinear field, time, depth and list of points", "why_tests_cant": "what breaks an opening is a coincidence of lengths between unrelated dimensions; sample files do not have it", "anchors": ["gridded/gridded.py:Dataset.__init__", "gridded/gridded.py:Dataset._variables_from_netCDF", "gridded/grids.py:Grid_R.lonlat_to_yx", "gridded/grids.py:Grid_R.infer_location", "gridded/grids.py:Grid_R.interpolate_var_to_points", "gridded/variable.py:Variable.at"]}
{"id": "C105", "title": "A file with a staggered grid answers with the data of the right points", "statement": "A file with two-dimensional coordinates for nodes, and possibly for centers and both kinds of edges, with masks, under the names ROMS and the conventions use, opens as a staggered grid with exactly those arrays; each variable is placed on the points its own attribute or its lengths say, with the instants of its samples, or left out if there are none; and every question to a variable is answered as the grid answers for the data of the time and depth asked: nodes bilinearly, edges and centers by their paddings; data without a time axis at every time alike. A field bilinear over the cells and sampled at the nodes is answered without distortion.", "quantifier": "every file with such coordinates, every variable over them, every data linear between its times and levels, every time, depth and list of located points", "why_tests_cant": "the place of a variable is guessed from sizes, which coincide only in some files; tests use one ROMS file", "anchors": ["gridded/gridded.py:Dataset.__init__", "gridded/gridded.py:Dataset._variables_from_netCDF", "gridded/grids.py:Grid_S._find_required_grid_attrs", "gridded/pysgrid/sgrid.py:SGrid.__init__", "gridded/pysgrid/sgrid.py:SGrid.infer_location", "gridded/pysgrid/sgrid.py:SGrid.interpolate_var_to_points", "gridded/variable.py:Variable.at"]}
{"id": "C106", "title": "A file of ROMS answers with the layer of the water over the point", "statement": "A file with a staggered grid and the terrain-following levels of ROMS (s_w, s_rho, Cs_w, Cs_r, hc, bathymetry and maybe free surface, by name and long name) opens when every variable over the depth has as many times as the free surface. Each of its variables is then answered in the water over the point at the time asked: bathymetry and free surface, averaged to the nodes if they are at the rho points around them, are interpolated to the point, the levels computed between them, and the data taken from the layer around the depth or between the two levels around it; nothing below the bottom or above the surface. Files with other depths are answered as in C105.", "quantifier": "every file with such variables, every number of levels, every data linear between its times, every time, depth and list of located points", "why_tests_cant": "layers depend on bathymetry, surface, time and stretching together; the tests check levels of one file, never an answer at a depth", "anchors": ["gridded/gridded.py:Dataset._variables_from_netCDF", "gridded/variable.py:Variable.from_netCDF", "gridded/depth.py:Depth.from_netCDF", "gridded/depth.py:S_Depth.from_netCDF", "gridded/depth.py:ROMS_Depth", "gridded/depth.py:S_Depth.interpolation_alphas", "gridded/variable.py:Variable.at"]}
{"id": "C107", "title": "A file of FVCOM answers with the level or layer of the water over the point", "statement": "A file with a mesh of triangles given by the names of its variables (coordinates and an index table, by row or by column, from zero or one) and terrain-following levels (siglev, siglay, bathymetry h and maybe free surface zeta) opens when every variable over the depth has as many times as the free surface; its grid is the mesh. Each of its variables, at nodes or faces, is then answered in the water over the point at the time asked: the depth of a level is the interpolated bathymetry plus the interpolated free surface, times its sigma; data on the levels is blended between the two around the depth and taken from the first above it, data on the layers taken from the layer around it, and nothing at or below the last level.", "quantifier": "every file with such variables, every mesh of triangles, every number of levels, every data linear in the triangles and between its times, every time, depth and list of points", "why_tests_cant": "levels depend on mesh, bathymetry, surface and time together; the tests check the levels of one file at most, and no file with the label of both tables", "anchors": ["gridded/gridded.py:Dataset._variables_from_netCDF", "gridded/grids.py:Grid._find_required_grid_attrs", "gridded/variable.py:Variable.from_netCDF", "gridded/depth.py:Depth.from_netCDF", "gridded/depth.py:S_Depth.from_netCDF", "gridded/depth.py:FVCOM_Depth", "gridded/depth.py:S_Depth.interpolation_alphas", "gridded/variable.py:Variable.at"]}
{"id": "C108", "title": "A file with an SGRID topology variable answers with the data of the right points", "statement": "A file whose staggered grid is described by a topology variable (coordinates of nodes, faces and edges, named by it or by the variables with that location; paddings; masks) opens as a staggered grid with exactly the arrays, paddings and mask described; each variable that the topology variable does not mention is placed on the points its own attribute or its lengths say, with the instants of its samples, or left out if there are none; and every question to a variable is answered as the grid answers for the data of the time and depth asked, with the padding that the topology variable gives for its dimensions. A field bilinear over the cells and sampled at the nodes is answered without distortion.", "quantifier": "every file with such a topology variable, every combination of paddings, every variable over the grid, every data linear between its times and levels, every time, depth and list of located points", "why_tests_cant": "paddings, coordinates and masks come in many combinations of which the test files have a few, almost all with equal paddings in the two dimensions, and values are not asked of them", "anchors": ["gridded/gridded.py:Dataset.__init__", "gridded/gridded.py:Dataset._variables_from_netCDF", "gridded/grids.py:Grid.from_netCDF", "gridded/pysgrid/sgrid.py:SGrid.load_grid", "gridded/pysgrid/sgrid.py:SGridAttributes", "gridded/pysgrid/sgrid.py:SGrid.face_padding", "gridded/pysgrid/sgrid.py:SGrid.edge1_padding", "gridded/pysgrid/sgrid.py:SGrid.interpolate_var_to_points", "gridded/variable.py:Variable.at"]}
{"id": "C109", "title": "Missing values show exactly where a sample in use is missing", "statement": "When some samples of a variable are missing, an answer is missing exactly when one of the samples in time and depth that the answer is made of is missing where it is asked: at the face that holds the point for data on the faces, at the corners of that face for data on the nodes when they are missing together; otherwise it is the number that the samples give. On a mesh a missing corner counts as zero unless all three are missing; over two axes missing entries count as zero and never show, and answers whose neighbours are all present are those of the field.", "quantifier": "every pattern of missing samples over time, depth and place, every mesh or pair of axes, every data linear between its times and levels, every time, depth and list of points; data given directly or in files with a mesh, a regular grid or of FVCOM", "why_tests_cant": "which samples an answer uses at the edges of a step (at an instant, at a level, beyond the first level, outside the mesh) shows only with a missing value in exactly that sample", "anchors": ["gridded/variable.py:Variable.at", "gridded/variable.py:Variable._time_interp", "gridded/variable.py:Variable._depth_interp", "gridded/pyugrid/ugrid.py:UGrid.interpolate_var_to_points", "gridded/grids.py:Grid_R.interpolate_var_to_points"]}
{"id": "C110", "title": "A dataset that is saved and opened again answers as before", "statement": "A dataset on a mesh of triangles that is saved and opened again gives, for every variable asked under its name, the same answers and the same errors as the variable gave before it was saved: at the corners of a face the data, within a face what the three corners give, the value of the face for data on faces, zero outside, whatever was done with the grid before. Saving what was opened gives the same file again.", "quantifier": "every mesh of triangles, with or without edges, boundaries and coordinates of faces and edges, every set of variables, every attribute, both formats, every list of points, time and depth asked", "why_tests_cant": "the tests save and compare arrays; whether the file leads to the same answers depends on how every name, dimension, attribute and table is found again, for meshes of all sizes", "anchors": ["gridded/gridded.py:Dataset.save", "gridded/gridded.py:Dataset.__init__", "gridded/pyugrid/ugrid.py:UGrid.save_as_netcdf", "gridded/pyugrid/ugrid.py:UGrid._save_variables", "gridded/pyugrid/read_netcdf.py:load_grid_from_nc_dataset", "gridded/variable.py:Variable.at"]}
{"id": "C111", "title": "A report says what the object holds", "statement": "The report (info) on a time axis, a variable, a mesh, a staggered grid or a dataset consists of exactly the documented lines with the values of the object in them, unindented, and the report on a dataset contains those on its grid and variables, indented: different shapes, sizes and texts give different reports. Every object can report. The helpers beside: check_element_equal answers whether all elements are the same, asarraylike returns arrays as they are and turns everything else into one.", "quantifier": "every object: all texts, sizes, shapes, attributes, numbers of variables", "why_tests_cant": "the tests call info and look at nothing, or at one text; that the layout survives every value, and that every kind of grid and variable reports, is about all of them", "anchors": ["gridded/time.py:Time.info", "gridded/variable.py:Variable.info", "gridded/variable.py:Variable.__repr__", "gridded/pyugrid/ugrid.py:UGrid.info", "gridded/pysgrid/sgrid.py:SGrid.info", "gridded/gridded.py:Dataset.info", "gridded/pyugrid/uvar.py:UVar.__str__", "gridded/pysgrid/variables.py:SGridVariable.__str__", "gridded/pysgrid/utils.py:check_element_equal", "gridded/utilities.py:asarraylike"]}
{"id": "C112", "title": "The mesh viewer draws every face, edge and node in its place", "statement": "The viewer puts on the canvas, in this order, the outline of every face at its nodes with its number at the centre of gravity, every edge likewise, then the numbers of the nodes at the nodes and the points; numbers of different nodes differ; without labels only the shapes. It fails exactly when a node number is not one of the mesh, counted from either end.", "quantifier": "every mesh with faces or edges of any sizes, or neither, with and without labels", "why_tests_cant": "there are no tests of the viewer, which needs a window; what is drawn for padded faces shows only on mixed meshes", "anchors": ["gridded/pyugrid/ugrid_wx.py:DrawFrame.Draw_UGRID"]}
{"id": "C113", "title": "A save changes its own file only, and a save that fails changes nothing", "statement": "Whatever is saved in whatever order, a file holds exactly what the last save that went there wrote, and opening it gives the answers of the dataset saved last; files that no save goes to are as before. A save with an unknown format or to something that is neither a name nor an open dataset is refused and changes nothing. A save that fails leaves the file that was there.", "quantifier": "every state of the disk, every history of saves of datasets on all kinds of grids to names, paths and open datasets, in both formats and others", "why_tests_cant": "the tests save once to a new file; what a failing save does to the file that was there, and what a sequence of saves leaves, depends on the order of opening, writing and failing", "anchors": ["gridded/gridded.py:Dataset.save", "gridded/utilities.py:get_writable_dataset", "gridded/pyugrid/ugrid.py:UGrid.save", "gridded/gridded.py:Dataset.__init__"]}
{"id": "C114", "title": "A vector read from a file answers with the dataset's variables, column by column", "statement": "VectorVariable.from_netCDF on a file with a mesh, a regular grid, a staggered grid with or without a topology variable, a file of ROMS or of FVCOM gives a vector whose answer has one column per component, in order, and each column is what the dataset that opens the same file answers for the variable of that name; the first component that fails decides the failure. In every history of cached questions to the vector and its components, components that sample fields on a mesh answer with the fields.", "quantifier": "every file, list of names or of names to look for, question and history of questions", "why_tests_cant": "the tests open a few files as vectors and as datasets separately and never compare; whether the time, the depth and the place of one component carry over to the others depends on the whole file", "anchors": ["gridded/variable.py:VectorVariable.from_netCDF", "gridded/variable.py:VectorVariable.at", "gridded/variable.py:VectorVariable.__init__"]}
{"id": "C115", "title": "Missing data on a staggered grid: answers are made of the samples in use, and missing when one of them is", "statement": "Where samples of a variable on a staggered grid are missing, at any of the locations and in any pattern over time, levels and cells, the answer is made of what the grid answers for the samples in use: the only one, the first or last one at or beyond it, or the two around the instant asked, of which the later may be at the instant. With two samples the answer is missing when one of theirs is and the weighted sum otherwise. On layers the same holds for the layer; on levels, fixed or following the terrain, for each sample the levels are combined in the same way. At the centers the answer is missing exactly when the cell is in one of these samples; at the nodes exactly when all four corners are.", "quantifier": "every grid, padding, location, pattern of missing samples, time, depth within DepthAsked or seat in the water column, and list of points; data given directly, in files with staggered coordinate variables, with an SGRID topology variable, and of ROMS", "why_tests_cant": "which samples are in use at an instant shows only with a missing value in exactly that sample; the tests have no staggered data with masks that change", "anchors": ["gridded/variable.py:Variable.at", "gridded/variable.py:Variable._time_interp", "gridded/variable.py:Variable._depth_interp", "gridded/pysgrid/sgrid.py:SGrid.interpolate_var_to_points"]}
