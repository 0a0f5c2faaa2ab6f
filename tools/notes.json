{
 "C01": "Argument combinations that raise before the axis check have their own theorem; c01_time_always_increasing extends the invariant to every later history of assignments.",
 "C07": "Refuted: Time(Time) and Time(ndarray) share the buffer and every shift is in place (also when the constructor raises). Partial: isolation holds for objects built from plain sequences, in every history.",
 "C09": "Refuted for binary64 (61 minutes prints +01:00: int() truncates 0.99999...). Partial: exact arithmetic for every whole minute; binary64 for every quarter-hour offset within 24 h.",
 "C10": "Refuted in two ways: an interior sampled time is blended with the previous sample, so a masked entry there hides a valid value; a depth-before-time order drops the slices chosen so far. Partial: the sampled-time clause for numeric fields; every other clause in full.",
 "C12": "Refuted: data assignment does not clear the cache, the key ignores options such as extrapolate, and it ignores the array shape. Partial: with no data assignment, one point width and one set of options, every history is answered as without cache.",
 "C13": "Refuted: the last-level path uses a stale or unbound index set, layer data above the first level stays NaN, and an extrapolated point is blended with the deepest level. Partial: every point strictly between levels or masked, for level data and for layer data, also combined with time.",
 "C16": "The scalar search is proved; the vector search takes the last match of each list (refuted, with the exact behaviour proved).",
 "C18": "Refuted: a one-based array is recognised iff some face uses the last node (proved as iff).",
 "C19": "Refuted for -1-padded mixed meshes (the padding counts as a node, so faces sharing only one node become neighbours). Proved for every rectangular array: pairing in order of visit; neighbour iff shared edge when no edge has more than two sides.",
 "C20": "Full for arrays without padding; with -1 padding the list contains edges to node -1 (refuted).",
 "C21": "Refuted: build_boundaries reuses the face_face table of an earlier mesh. Partial: exact list when the table is absent or belongs to the mesh; for any table, the sides it marks -1.",
 "C22": "Proved for every nearest-entry search standing for scipy's cKDTree.",
 "C23": "Refuted for -1 padding (averages in the last node) and for a missing edge array. Partial: means of the listed nodes for every other array.",
 "C25": "Refuted: NaN or masked last entries, a flat last triangle, quadrilaterals and plain arrays. Partial: numeric data on triangle meshes, composed with the method for every history of queries.",
 "C26": "Refuted for clockwise faces and for quadrilaterals. Partial: counter-clockwise triangle meshes.",
 "C27": "Refuted: with clockwise corners every point is accepted (proved for all points). Partial: counter-clockwise corners, exact set accepted.",
 "C29": "Refuted: the cell tree and memo tables survive replacing the nodes. Partial: meshes that are not replaced, any history of queries; simple search without memo in any state.",
 "C30": "Refuted: scalar first, array from the memo. Partial: same values, and stable without memo.",
 "C32": "Also for descending axes (latitudes from north to south) and NaN coordinates.",
 "C33": "The statement was corrected after reading the function (it selects the axis order, it does not invert coordinates). Refuted for named dimensions: lengths are only checked to be some axis length; such data is proved to be rejected before interpolation.",
 "C34": "Refuted: edge data raises AttributeError, a vector is compared with both axes. Partial: exact decision table for two trailing dimensions; centers and nodes in full.",
 "C35": "Refuted: a file declaring a rectangular type or writing its type in capitals is not believed, and the rectangular class cannot read a file with a topology variable. Partial: every other rule of the decision list, in order of precedence, and what the factory then does.",
 "C36": "Grids with at least two node columns. The cell tree's own search is not modelled; the theorems hold for whatever face number it answers.",
 "C37": "Center masks of the declared padded shape. Refuted for masks carried by node_lon/node_lat themselves.",
 "C38": "Refuted: a node mask alone, or a center mask without any non-zero raw value, raises UnboundLocalError.",
 "C39": "Slices and shifts agree for all known padding words; the padding guessed from shapes wraps around for shapes that fit none.",
 "C40": "infer_location compares with the node shape only; stored center/edge shapes are not consulted.",
 "C41": "node, edge and centre data: whole result of interpolate_var_to_points proved over the reals for points placed in convex cells whose longitude varies along columns; refuted: calling without slices raises ValueError, with precomputed alphas raises UnboundLocalError",
 "C42": "maps back always; unique and found in convex cells; defined when longitude varies along columns; parallelograms exact",
 "C43": "columns running east: proved; rows running east: 0/0 for every point (refuted), node interpolation then always fails its assertion",
 "C44": "the two fractions are exchanged (refuted by a node mapped to its neighbour); the exchanged statement is proved",
 "C45": "zero and no-mask cases proved; mirror refuses three or more points and leaks hidden data when both are masked; mask applies other points' masks (exact characterisation proved)",
 "C46": "Refuted at the last list entry (a point exactly on it gets the last index, and is masked by default). Partial: every other depth, both directions; composed with Variable: fields linear in depth are exact.",
 "C47": "Refuted: a point exactly on the last list entry counts as outside and can be masked. Partial: everything else for level depths; the sigma boundary function in full. Also: a bottom-up axis asked above its surface always makes the Variable raise.",
 "C48": "Refuted for data on layers: points between the last layer centre and the end of the column raise ValueError (proved to raise always). Partial: level data in full, also from the ROMS coefficients.",
 "C49": "Refuted: the first ROMS transform is not monotone when hc > h. Partial: ends for both transforms and FVCOM; monotone for transform 2, and for transform 1 with hc <= h; FVCOM in full.",
 "C50": "Refuted: from_netCDF passes surface_index as the name, so -1 is always used. The direct construction is proved.",
 "C52": "Accepted shapes, refused shapes (exact) and idempotence in full for up to two proper dimensions. Remarks refuted: an empty 0x2 array comes back as 2x0; three proper dimensions may be refused on the second pass.",
 "C53": "Full for points of two proper dimensions; c53_layouts_agree composes it with C52 for any computation that answers one row per point.",
 "C54": "Entries are integers with a masked flag. Float dtypes and tokens such as 1.0 are not modelled.",
 "C55": "Full, with the precedence rule shown to determine the answer; also search_dataset_for_any_long_name.",
 "C56": "Full. A str and a PathLike (or a one-element list) naming the same file count as different and give two objects (c56_example); a data file without a grid file raises.",
 "C57": "Refuted for mixed directions: bound.insert(p1) raises TypeError (a triangle). Otherwise full: partition for every input that does not raise, closed boundaries (even degree everywhere) never give open chains, and one-way boundaries never raise.",
 "C58": "Save then load, for boundaries made of closed one-way loops: every point and depth is there to the printed precision, the order is boundary loops then the other points ascending, the boundary segments in old numbering are the given ones, and saving again gives the same lines. Refuted parts: without units the loaded data cannot be saved again (KeyError); open boundary chains are silently dropped.",
 "C59": "Proved for tables of the usual row orientation whose number of rows differs from the expected width, for column-oriented tables of three rows (two for edges) and for missing start_index when the last node is (or node 0 is) used. Refuted: a table of exactly 3 faces or 2 edges is transposed, Fortran-ordered quads are not turned back, -1 without flag_values becomes -2 (and the load raises ValueError), and the guess of start_index fails when the last node is unused.",
 "C60": "Padding entries, axes and vector axis parse exactly for legal names, ValueError exactly when no entry occurs; refuted for dimension names with characters outside [a-zA-Z0-9_] and for axis coordinate names with digits, which are cut or lost.",
 "C61": "Rotation over exact reals (standard library sine and cosine); averages over exact rationals with masked entries.",
 "C62": "All parts, over exact rationals; also convex polygons of any size, cuts along diagonals, fans, bounding boxes. Points on the boundary are not covered by the property.",
 "C63": "Bounded and truthful for data that is not replaced and items told apart by str(). Refuted: stale answers after replacing a UVar's data, long index arrays with equal str(), UMVar.add_var after indexing, UMVar with equal names.",
 "C64": "Refuted for negative heights (the deepest level is moved to 0 and the axis is no longer monotone). Partial: non-negative levels in full.",
 "C65": "Refuted: masked entries count as 0, center data is rejected. Partial: numeric tables in full; scipy's RegularGridInterpolator is modelled by its documented linear behaviour.",
 "C66": "Refuted: three face-major triangles are transposed, an explicit topology is looked up in lower case, composite keys ignore their value, a missing node mask is advertised. Partial: all other face arrays; coordinates and staggered arguments in full.",
 "C67": "Refuted for single points after an equal one-row array query, and for a change of use_mask.",
 "C68": "Mean of four cells, bounds and shape for cells padded on both sides; refuted for cells inside the nodes, whose average fits no location.",
 "C69": "Topology variable, node coordinates (sound, found iff present, unique), coordinates by location (named or guessed) and masks are characterised; refuted for names containing an x (lat_vertex, flux), for double spaces in the coordinates attribute and for masks of locations of equal shape.",
 "C70": "Slices, averaging axes, locations and loading are characterised for files declaring face and vertical dimensions; refuted for padding \"high\" (keeps one entry), files without vertical_dimensions (load fails) and dimensionless variables with a grid attribute (UnboundLocalError).",
 "C71": "Discovery, coordinates, consistency of what loads and the errors are proved for every file. The round trip is proved for names without blanks, tables not of exactly 3 (2) rows, and without boundary coordinates and face_face tables, which are lost. Data variables, dtype and storage layout are not modelled.",
 "C72": "Columns, first exception, cache bound and origin of every answer are proved for every history. Transparency is proved without assignments to component data, with one point width and one set of options; the assignment case is refuted.",
 "C73": "Proved for vectors with any writes (keys assumed to identify requests), and for single variables with number writes; refuted for masking an entry of a single variable's answer, which the read-only flag of a masked array does not prevent. A caller who sets the writeable flag back is not modelled.",
 "C74": "Constructor, unit and accepted time assignments are proved. Refuted: TypeError/IndexError instead of ValueError without components, a rejected time leaves earlier components changed, a sequence raises AttributeError after changing the components, a time given to the constructor is not given to the components, and 'mm' reads back as 'm'.",
 "C75": "Proved with the date and unit parsers (dateutil, cftime) as arbitrary functions. Units with a non-zero offset are refuted: num2date already converts to UTC, the offset is then recorded as well, so every instant is off by exactly that offset (c75_instants_off_by).",
 "C76": "Search, agreement and errors are proved for every file. Isolation of the constant time is refuted: it is one object, so an offset or displacement set by one user is seen by all.",
 "C77": "Location, time, fields, exact acceptance and default names are proved for every file. The depth rule is proved when no time is given, refuted when it is: a given time is taken to mean a time dimension. Depth.from_netCDF is an arbitrary outcome here; file arguments are C56. The time of a variable whose axis is in any zone is the numbers of the axis as UTC instants (c77_time_data); the offset that C75 speaks of is only recorded beside them.",
 "C78": "Soundness, completeness, order and exact failure are proved. Refuted: on a rectilinear grid a scalar variable, or one with an unknown location attribute, makes the whole load fail; and any word of any attribute of the mesh variable counts as a grid name, so a variable called 'data' in a file written by UGrid.save is not loaded.",
 "C79": "The round trip is proved for one-dimensional data on grids without boundary coordinates, with mesh names free of blanks and of 'time' and variable names that are not words of the mesh attributes; acceptance is characterised exactly. Refuted: loaded data does not save back under its keys (the long name is used, and two equal ones fail), a _FillValue attribute cannot be saved, boundary coordinates come back as data variables, a mesh named after time cannot be loaded again, stale mesh attributes override the right ones. Keys, dataset attributes and the netcdf3 format are lost (proved as facts). netCDF4 itself is modelled as named variables with attributes; repeating one value over a dimension is not modelled.",
 "C80": "The k-d tree of scipy is any function that finds a nearest point of its tree (hypothesis Searches, shown satisfiable by a linear scan). Proved for grids whose tree was built beforehand and whose coordinates did not change since. Refuted: locate_nearest without build_kdtree always raises KeyError, trees go stale when coordinates change, an unmasked -1 makes empty slices (numpy 2 unsigned wrap-around), and a variable whose location cannot be inferred is read at shifted places. Masked index rows in nearest_var_to_points and coordinates with nan are not modelled.",
 "C81": "Proved: topology attributes, node and center coordinates and angles come back for every well-formed file whose grid has face and node coordinates of distinct names, a scalar topology variable and no spaces in names; descriptions of other variables come back but for the location. Refuted in general form: all values of other variables (edge coordinates, masks, data) are lost, attributes of coordinates and location attributes are not written, and a grid without face coordinates cannot be saved (TypeError). Data types, scale factors, groups and numpy broadcasting of coordinates are not modelled; variables named like attributes of SGrid are left out; when several errors are possible the one raised first may differ.",
 "C82": "Refuted: a copy of a grid with nan in a compared array is not equal to it (general statement); masks and all other attributes of staggered grids play no part; comparing staggered grids with unlike center and node sizes raises IndexError. Entries of one array are all compared exactly; comparisons of a text array with a number array are false (numpy 2). Shapes of different lengths in the guess of face paddings are not modelled.",
 "C83": "Numbers are exact reals; signed zeros are not told apart (at coincident or antipodal points numpy's arctan2 may answer 180 instead of 0). The direction is specified by dot products with the east and north unit vectors and shown unique. Partial: rows of one cell get no angle, and masks are ignored (both stated in general form).",
 "C84": "The source's at, its depth profile and the reading of one level are arbitrary functions (their own properties are C13-C30). Values and levels are proved for staggered sources and destinations, at the nodes or at centers arranged like the nodes. Refuted of the code, each in general form: masks are lost once there is a time, a destination outside the source is not noticed, values read at centers are labelled as node values, other centers are rejected, a depth without time is lost from the data, the depth transform is lost, and a variable is never returned unchanged. Everything else it refuses is listed with its exception.",
 "C85": "The grid is given; reading depths from files may answer or raise; names have no slashes. Components, order, time, units and refusals are proved in general. That a component equals the variable loaded by itself holds for variables on the same time axis with as many dimensions as the first (c85_alone_partial); otherwise it is refuted: the first variable's time axis and depth are imposed on the others, and four-dimensional data without time axis get a depth only as components.",
 "C86": "Over the reals; the value is a number; the cell search is a parameter required to answer a containing cell and to find every point strictly inside the box. Inside the box and for filled answers proved in general, also after any history of requests with one number of coordinates. Refuted: at the poles (beyond 89.95 degrees) and beyond 360 degrees of longitude the answer is masked; the cache keeps no note of unmask, so a filled array asked for after a masked one is masked, nor of the number of coordinates, so two points can get three values.",
 "C87": "Over the search of SearchModel (C55) with the tables of the three classes. ROMS files proved. FVCOM and level files under the condition that the labels belong to one variable (no variable labelled with a single letter, for levels). Refuted: sigma layers and sigma levels have the same label, so whenever a variable carries it both roles get the same variable and data on levels is refused; the label of depth levels is a string whose letters are searched, so the standard name depth is never found and a variable labelled t is taken before one named depth.",
 "C88": "What was found, the grid (its infer_location) and the date parsers are parameters; of the values only the origin is kept. Fields, time, bathymetry, the no-zeta case, outer centers and meshes on nodes proved. Refuted: inner centers (averages fit nothing), the place of zeta is decided by the bathymetry's, bathymetry passed in with zeta in the file raises UnboundLocalError, a zeta without time raises TypeError, terms given as documented (component to variable name) are not read.",
 "C89": "Proved for more faces than nodes per face and a mesh that uses its first node. Refuted: with fewer faces than nodes per face the rows and columns are exchanged; a mesh that does not use its first node keeps the file's base, and a zero-based one whose smallest number is 1 loses it, neighbours being shifted alike; face centers are stored in the type of the node longitudes; attributes expected with a capital letter are never found. The post-processing callback and the reading of masked values are not modelled.",
 "C90": "What is handed to matplotlib and shapely, over rational coordinates; the rendering is not modelled. Refuted: plot_ugrid exchanges rows and columns of a mesh of exactly three faces; the wireframe of faces with four nodes misses two sides and draws a diagonal; three faces of nv stored by columns, or a mesh that does not use its first node, are misread.",
 "C91": "The cell tree is a parameter assumed to find a face that contains the point, if any. Proved for longitudes in [0, 360) or [-180, 180] when no face crosses the 180th meridian. Refuted: faces across it, meshes with both negative longitudes and longitudes beyond 180, nodes at exactly 360, and the documented Fortran node numbers (they count from zero).",
 "C92": "Proved for variables whose names are not reserved by the grid object. Refuted for the others: a variable named like a part (for example node_lon or angles) replaces it, one named like a read-only property (info, nodes, centers, non_grid_variables, and shape of Grid_S) makes loading fail, and variables or grid_variables are overwritten by the lists. Names with two leading underscores are not modelled.",
 "C93": "Reading the grid, variables and attributes of a file are parameters (other claims). Refuted: Dataset(file) leaves time and depth unset and ignores the grid topology passed, refuses attributes that its documentation says are ignored, and dicts passed in are shared rather than copied.",
 "C94": "Proved for levels depths, with and without time and depth axes, on meshes and rectangular grids, numbers only. The cell tree's answer is a parameter: -1 or a face that holds the point. Sigma depths on meshes are C97. Staggered grids are C98. Masked data is C109. Data on the layers between the levels is LayerProps; beyond the first level, where answers are not masked, it is never given a number, and past the last level the whole question has no answer (LAboveProps). With levels listed downwards every depth is covered for layers (LAnyProps). Any depth is covered where answers beyond the levels are masked or taken from the first level (AnyDepthProps). With levels listed upwards a point at or above the last is never given a number, and points of that kind alone raise (UpProps). Refuted at the deepest level, when answers there are not masked: the points of the level above show the deepest value and the point itself NaN, or the call raises.",
 "C95": "Keyword calls. Proved for terms that do not carry the names of settings or properties; refusals, ends, sizes and the name search are exact. Refuted: the bottom condition of surface-only and level depths can only be set under a misspelled keyword, level and sigma classes take the conditions under different keywords and drop the other's, surface_index cannot be set as the factory's warning asks, a surface index passed to a level or sigma object has no effect, the name search never looks at the names listed in its tables, and _find_required_depth_attrs of level depths always raises TypeError.",
 "C96": "Proved for any history and any subclasses when the classes count and have different names (c96_differ_partial); numbers are exact. Refuted: level depths are never counted, so all made without a name are called the same, and a default name can equal a name given or the default name of an equally named class. A grid given name=None explicitly is not modelled.",
 "C97": "Proved for numbers, levels listed from the surface down, columns that deepen and data that samples a field linear over each face and in time. Points beyond the bottom are covered when the bottom condition masks them (extrapolated ones are C13's refuted case), layer data above the surface likewise. A field linear in depth is answered exactly. Refuted: sigma and depth are interpolated before they are multiplied, so where both vary a field sampled exactly is answered by another number; and plain arrays with a free surface from the file have no mask, so every question is an AttributeError.",
 "C98": "Proved for all four locations without depth and with layer data, for nodes and edges on levels, and for centers on levels asked one point at a time. The land mask may not change with time, nor with depth on levels; edges with the behaviour zero over land. Refuted for centers on levels: the grid answers a column, numpy combines it with the vector of depth weights into a table, and every point of a layer shows the column of the first point of the question in that layer. The cell tree's answer is a parameter. Sigma depths over staggered grids are C99. Land masks that change with time or depth are C115. Asked at any depth, with levels listed downwards: c98_any_depth (SAnyDepthProps). With levels listed upwards, points at or above the last are never given a number and raise when asked alone (SUpProps); files asked below the last only: SUpWaterProps. Missing: the other behaviours on edges.",
 "C99": "Proved for nodes and edges on levels, for every location on layers, and for centers on levels asked one point at a time (several points: refuted in C98). Fields linear in depth are answered exactly for node data when the levels are proportional to the water depth (no critical depth, or the first transformation under a still surface); refuted with a critical depth, where interpolating along levels distorts them. Missing: points above the surface with extrapolation (they raise, C13 and C47), extrapolation below the bottom for layers, NaN in profiles, stretching arrays of length one. Land masks that change with time or level are C115.",
 "C100": "The session is proved for every history; the grid search is a parameter that answers a face of the mesh. Refuted: the mark in the middle of a face stays when another is selected; the spill is drawn at its longitude as given while the mesh is moved to -180..180; the middle of a face across the 180th meridian is recorded far away; node numbers count from zero although documented as Fortran numbers; files whose names differ in their suffix share one log. Styles, texts, badge offsets, printing and choosing a backend are not modelled; a disk error is RuntimeError.",
 "C101": "Composition of C72, C98 and C99. For the edge behaviour 'zero' and land masks that do not change with time or depth. The answers are continuous across a side only in the direction that crosses it (as staggered data are). The cell search is a parameter.",
 "C102": "Composition of the models of C35, C51, C59, C64, C71, C75, C77, C78, C87 and C94 on one file. Masked data is C109. Given that the dataset opens (C78 says when not). The times in the file may be in any zone, the questions are in UTC (c102_zone). With levels listed downwards every depth is covered: above the first level the answer is that level's, from the last level down it is masked (AnyDepthProps). With levels listed upwards, points at or above the last are never given a number and raise when asked alone (UpProps); asked below the last only, every question is answered, masked below the deepest (UpWaterProps). Data on the layers between the levels: c102_layers_nodes_partial (LFileProps), for points within the levels or below the deepest; c102_layers_any_depth_nodes_partial (LAnyProps) has every depth where levels are listed downwards, next to each other: NaN above the surface, masked below the deepest. Refuted for layers: above the surface the answer is NaN although it should be extrapolated, and with levels listed upwards a point at the surface makes the whole question raise IndexError; for every file such points are never given a number, and raise (c102_layers_unanswered, c102_layers_past_raises, LAboveProps). Refuted: with such a point in the question, points of the layer below are answered with the value at the surface; depth data without a time axis is answered from its first level whatever the depth of the points; levels under a name that is not one of three make every question raise AttributeError; an axis as long as there are faces is loaded as data. The cell search is a parameter.",
 "C103": "Proved for programs in which each array is handed over or edited at most once (own tables), and, for tables that fit, in which nodes and faces are not replaced under other tables. Refuted: faces numbered from one are renumbered in the caller's array, which changes another grid that holds it, and also when the constructor raises afterwards; the caller's later edits show in the grid unchecked; longitudes without latitudes are dropped silently; replacing nodes or faces leaves stale tables; deleting nodes leaves tables and coordinates; deleting faces leaves face coordinates and drops edge coordinates; a grid without faces or edges has one line through all its nodes; padding draws lines to the last node. Missing: masked arrays, grid_topology.",
 "C104": "Proved: the grid; that the file opens when every variable is sampled on the grid or elsewhere; exactly which variables prevent it; the variables; the answers and sessions for unmasked data, with times in any zone and questions in UTC, within DepthAsked, and at any depth for levels listed downwards (AnyDepthProps). Refuted: a variable that is a single number (a CF grid mapping) prevents opening, and so does an axis one longer than the rows and as long as the columns; data with rows by longitude and without a location attribute is left out; axes in capitals, or dimensions called otherwise than the axis variables, open and never answer. Masked data is C109. With levels listed upwards, points at or above the last are never given a number and raise when asked alone (UpProps); asked below the last only, every question is answered, masked below the deepest (UpWaterProps). Data on the layers between the levels: c104_layers_partial (LFileProps); above the first level never a number, and past the last level of levels listed upwards no answer at all (LAboveProps). Every depth, levels listed downwards: c104_layers_any_depth_partial (LAnyProps).",
 "C105": "Proved: the grid and its names; that the file opens when every variable is sampled on the grid, nowhere on it, or part of it; what is left out; place and instants of the variables; the answers over time at all points, on levels at nodes and edges (centers one point at a time, see C98), without time; fields at the nodes. Refuted: velocities on the edges between centers inside the nodes are never opened (also proved for all files: c105_inner_edges), nor are velocities in a file without coordinates for the edges, and data on as many centers as nodes is taken for data on the nodes although the grid knows the padding. Masks that change with time or depth are C115. At any depth when the levels are listed downwards (SAnyDepthProps). With levels listed upwards, points at or above the last are never given a number and raise when asked alone (SUpProps); asked below the last only, every question is answered (SUpWaterProps). Files with a topology variable are C108.",
 "C106": "Proved: that the file opens, what is left out, place, instants and depth of the variables; answers on layers and levels, for several points or one, over time only, without time; that files without such levels are read as in C105. Refuted: the vertical transformation in the file (Vtransform) is never read, and where it is 1 answers come from another layer; data over the depth with another number of times than the free surface makes the file unreadable; bathymetry at the centers of the cells is averaged over cells and the file unreadable. Masks that change with time or level are C115. Missing: depths above the surface when it is extrapolated (C99), centers on levels for several points (C98), FVCOM levels, columns that do not fall.",
 "C107": "Proved: that the file opens, that its grid is the mesh, what is left out, place, instants and depth of the variables; answers on levels (exact for data linear in depth), on layers, and over time only, at nodes and faces; that with the label ocean_sigma/general_coordinate one variable is read for levels and layers. Refuted: in a file with that label on both tables data on the levels is answered at the depths of the layers; data on the layers above the first level is not a number and not masked; data over the depth with other times than the free surface makes the file unreadable; the tables of sigmas are opened as data and answer with their last row. Masked data is C109. Missing: fewer data than levels, as many layers as levels unless they are the same, files where a topology variable describes the mesh together with such levels, bathymetry not at the nodes.",
 "C108": "Proved: the grid and the words by which its variables are known; that the file opens when every variable is mentioned, nowhere on the grid, or properly sampled; what is left out; place and instants of the variables; the answers over time at all points, on levels at nodes and edges (faces one point at a time, see C98), without time; at any depth when the levels are listed downwards (SAnyDepthProps), and for levels listed upwards no number at or above the last (SUpProps), every question answered below it (SUpWaterProps); fields at the nodes; what is answered when the padding of the columns is listed first (c108_columns_first). Refuted: listed in the order of the convention, columns first, different paddings are exchanged and answers come from another cell; a file without vertical_dimensions, which the convention does not ask for, cannot be opened; nor can one with a variable called shape, info, nodes, centers or non_grid_variables. Missing: node coordinates guessed from dimensions, variables with the names of other attributes of the grid object. Masks that change with time or depth are C115.",
 "C109": "Proved for depths within DepthAsked, and for meshes and their files at any depth (AnyDepthProps; levels listed upwards below the last: UpWaterProps): meshes (nodes missing together on the faces asked, nodes counted as zero, faces), rectangular grids, and the same for files with a mesh, files of FVCOM (data over time, on their levels and on their layers) and files with a regular grid. Refuted as users expect it: a face with one missing corner answers with a number that is too small; at the instant of a complete sample the answer is missing when the sample before is; above the first level it is missing when the deepest level is, and at the depth of a level when the next one is; outside the mesh the answer is zero, or missing when the last face is; over two axes data that are all missing answer zeros. Staggered grids are C115. Layers between levels of fixed depths: LayerProps (meshes), LMaskProps (rectangular grids), LFileProps (faces in files). Missing: masked bathymetry, free surface or sigmas. Layers at any depth, levels listed downwards: LAnyProps.",
 "C110": "Proved for meshes whose tables are not of three faces, two edges or two boundaries, whose name is one word not mentioning time, and variables with one value per element (time and depth are not saved). Refuted without: a mesh of three triangles opens with other faces, one of them with the same node twice; a variable asked under its key in the dataset is not found. That saving what was opened gives the same file needs long names that equal the names (c79_resave_refuted) and no table of neighbours or of edges of faces. Missing: grids other than meshes, masked data, data with layers.",
 "C111": "Proved for texts of one line; dedent is modelled line by line. Refuted: a dataset on a regular grid, with a vector, or on a mesh without faces cannot report at all; a text with a line break leaves the indentation of the source in the report; nothing and the text None look the same; check_element_equal answers arrays by an array. Texts of dates, grid objects and types are given. Taking the indentation off is c111_dedented (DedentProps).",
 "C112": "Proved for meshes without padding. Refuted: a face padded with -1 gets the last node of the mesh as a corner. Colours, menus and dialogs are not modelled; an empty row, whose mean is nan, is excluded.",
 "C113": "Proved: refused saves, what a save leaves and where, histories, and (for the datasets of C110) the answers after any history. Refuted in general form: a save that fails has emptied the file first, always so on grids other than meshes, which have no save; paths that are not strings are refused; an open dataset that is passed in is closed. Files given as open datasets are new and empty; what a broken file still holds, and saving over the file that the data is read from, are not modelled.",
 "C114": "Proved for components that the dataset holds, on one time axis, with as many dimensions as the first and known locations (Together), for all six kinds of files; sessions and fields for meshes. Refuted: a component on another time axis answers at the instants of the first; a component with an unknown location is answered by the dataset and refused by the vector. Missing: vectors without a time axis of data with levels, given times and depths (C85), angle rotation (C61).",
 "C115": "Proved for data over time and on layers at all four locations, on levels at nodes and edges (centers one point at a time, see C98); when answers are missing at centers and nodes; on the levels and layers of ROMS; the same for both kinds of files and for files of ROMS. Refuted as users expect it: at the instant of a complete sample the answer is missing when the sample before is; a cell with one missing corner answers with a number that is too small. At any depth when the levels are listed downwards (SAnyDepthProps). With levels listed upwards no number is given at or above the last whatever is missing (SUpProps); below the last only: SUpWaterProps. Missing: bathymetry and free surface with masks that change with time."
}