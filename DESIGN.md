# Design: a machine-checked model of gridded's logical core

## What is modelled and how

The Python sources in `/repo/gridded` are read as text and transcribed, function
by function, into small total Gallina functions (`rocq/theories/*Model.v`).
Every definition cites the file and lines it transcribes and names its
simplifications. Exceptions are values of a `result` type (`Common.err` lists
the Python exception classes). Stateful objects become `init`/`step` machines
and histories are lists of operations.

Values: array indices and shapes are `nat`/`Z`; times are `Z` microseconds;
coordinates, depths and data are exact rationals `Q` (no rounding) except where
a square root or trigonometric function occurs, where Coq's classical reals `R`
are used (SGridInterp, Vector), and where rounding is itself the subject (C09),
where the standard library's executable IEEE-754 `SpecFloat` is used. Masked
entries are `None`, or a value with a flag where the hidden number matters.

For each area there are up to five files:

* `XModel.v`  – transcription of the code, no proofs;
* `XSpec.v`   – what the property means, written without the model's helpers;
* `XProofs.v` (and a few more names) – lemmas;
* `XProps.v`  – the property theorems `cNN_…`, each followed by
  `Print Assumptions`, with `Example`s whose hypotheses are met.

A theorem named `…_partial` proves part of its property: the note in the table
below says what is missing. A theorem named `…_refuted` exhibits an input for
which the property is false of the faithful model; these are the findings.
A property with either is reported as `partial`.

## How each property was planned

| id | modelled | how proved |
|----|----------|-----------|
| C01 | `Time.__init__` (shift pipeline + two checks: sort equality and unique count) | iff with `StronglySorted Z.lt`, insertion sort/unique counted on lists |
| C02 | `index_of` with `searchsorted` as binary search | bracketing + counting spec, induction |
| C03 | `interp_alpha` in `Q` | field arithmetic from C02; monotonicity by cases on brackets |
| C04 | `valid_time`, flags | iff case analysis |
| C05 | `tz_offset` setter as state machine | invariant over histories |
| C06 | `displacement` setter as state machine | invariant over histories |
| C07 | heap of shared arrays | refuted by witness; what holds proved |
| C08 | `__eq__` | laws |
| C09 | `offset_as_iso_string` over `Q` and over binary64 | round trip over `Q`; finite sweep over all whole-minute offsets in binary64 |
| C10 | `_time_interp` | from C02–C04 |
| C11, C28, C63 | FIFO memo dictionaries | invariant over histories |
| C12 | `Variable.at` with its cache | refuted; transparency under the conditions that make it true |
| C13 | `_depth_interp` loop over unique indices incl. the stale `lay_idxs` | refuted for end levels; proved otherwise |
| C14 | `dimension_ordering` | case analysis |
| C15 | `data`/`time` setters | invariant over histories |
| C16 | `_gen_varname(s)` | first-match spec; the vector version is refuted (last match wins) |
| C17, C18 | `faces` setter | accept/reject iff; one-based recognition refuted |
| C19–C22 | topology builders over arbitrary meshes | fold invariants |
| C23 | coordinate means | algebra |
| C24, C25 | `interpolation_alphas`, `interpolate_var_to_points` | field arithmetic |
| C26, C27 | `locate_faces` simple method, `point_in_tri` | first-match spec; orientation refuted |
| C29, C30, C67 | location state machine with memo and cell tree | refuted with witness; conditional positive theorem |
| C31, C34, C40 | `infer_location` | decision table |
| C32, C33, C65 | `Grid_R.locate_faces`, `lonlat_to_yx`, interpolation | bracketing, bilinear algebra |
| C35, C66 | `_get_grid_type`, argument search of the grid factories | decision table, first-match spec |
| C36–C38 | `build_celltree` compaction, `locate_faces` renumbering | list/array lemmas |
| C39 | padding slices and shifts | arithmetic |
| C41 | bilinear weights and the whole node/edge/centre interpolation | real algebra, loop refinement |
| C42–C44 | `x_to_l`, `geo_to_logical` | real algebra; refutations |
| C45 | `compute_interpolant` | per-mode spec; `mask` mode refuted |
| C46–C51, C64 | depth classes | bracketing, boundary conditions, profile algebra, decision table |
| C52–C56 | utilities | shape/decision specs |
| C57, C58 | verdat | loop chaining invariant; printing and parsing of decimal text |
| C59, C71 | `pyugrid/read_netcdf.py`, `UGrid.save` | round trips over files given as lists of variables |
| C60 | attribute parsing on character lists, with a model of the regular expressions used | round trip |
| C61, C68 | rotation over `R`, averaging | trigonometric identities, means |
| C62 | ray casting | xor over edges |
| C69, C70 | `pysgrid/read_netcdf.py`, `variables.py`, `load_grid` loops | first/only-match specs, slicing arithmetic |

## Coverage by source file

| file | modelled | not modelled |
|------|----------|--------------|
| time.py | Time constructor and setters (tz_offset, displacement, shift), checks, index_of, interp_alpha, valid_time, __eq__, offset_as_iso_string, parse_time_offset, locate_time_var_from_var, from_netCDF, constant_time (dateutil and cftime as arbitrary functions); info (C111) | datetime objects with a time zone of their own, calendars |
| variable.py | constructor and from_netCDF of Variable, constant, at with cache, at composed with the interpolation of meshes, rectangular and staggered grids, _time_interp, _depth_interp, _xy_interp dispatch, dimension_ordering, data/time/location setters, _gen_varname(s); VectorVariable at, cache, constructor from components, from_netCDF, time, units, default names and class counters, currents on staggered grids from points to values; data with missing values (C109, on staggered grids C115); info and __repr__ (C111); VectorVariable.from_netCDF and at, from files of all kinds to the answers (C114) | __repr__ of VectorVariable, docstring helpers |
| depth.py | constructors and properties of all classes, DepthBase, L_Depth, S_Depth, ROMS/FVCOM_Depth profiles and indices, boundary conditions, class choice, level loading, S_Depth.from_netCDF, variable-name lists, _gen_varname, default names and class counters, FVCOM_Depth composed with Variable.at on meshes, ROMS_Depth with Variable.at on staggered grids; ROMS_Depth from the file to the answers, with the averaged bathymetry and free surface; FVCOM_Depth from the file to the answers | file opening, positional constructor arguments |
| grids.py | _get_grid_type, argument search of Grid_U/S/R constructors, Grid_R.locate_faces, lonlat_to_yx, infer_location, centers, interpolation, default names and the class counter; Grid_S.from_netCDF with a topology variable, up to the answers; data with missing values (C109) | plotting helpers |
| utilities.py | point normalisation and alignment, mask conversion, variable search, dataset resolution, ray casting, regridding; isarraylike, asarraylike (C111); get_writable_dataset (C113) | spatial_data_metadata, download helpers |
| pyugrid/ugrid.py | faces/edges/boundaries setters, topology builders, coordinates, location inference, locate_faces with memo, locate_nodes, interpolation, save with data variables, __eq__, objects over shared arrays: constructor, setters, deleters, get_lines; data with missing values (C109); answers of a saved mesh (C110); info (C111) | the k-d tree and cell tree libraries, print |
| pyugrid/read_netcdf.py | mesh discovery and loading, load_from_varnames (grid_io/utils.py) | the post-processing callback of load_from_varnames |
| pyugrid/uvar.py, pysgrid/variables.py | item caches, UMVar, variable description | attributes pass-through |
| pyugrid/util.py | point_in_tri, array/mask helpers used by the above; isarraylike, asarraylike (C111) | nothing |
| pysgrid/sgrid.py | mask handling, cell tree compaction, locate_faces with memo, x_to_l, geo_to_logical, interpolation, compute_interpolant, infer_location, load and save, variables as attributes, nearest points, efficient slices, __eq__, interpolation under Variable.at; load_grid from the file to the answers of the variables; info (C111) | the rest of the helpers |
| pysgrid/read_netcdf.py, utils.py, lookup.py, processing_2d.py | attribute parsing, coordinate and mask discovery, slicing, rotation and averaging, bearings and angles; check_element_equal (C111) | nothing |
| io/verdat.py | order_boundary_segments, save and load | line numbers in error texts |
| gridded.py, plotting/, pyugrid/ugrid_wx.py | gridded.py: Dataset construction and items, save, _variables_from_netCDF, get_variables_by_attribute; plotting: plot_ugrid, plot_sgrid, triangles, wireframe, extent and query of GridGeoGenerator, the inspector's window, opening a file with a mesh and asking its variables (composition), files with regular grids from opening to answers, files with staggered grids from opening to answers, files of ROMS from opening to answers, files of FVCOM from opening to answers, files with an SGRID topology variable from opening to answers; saving, opening again and asking (C110); info of Dataset (C111); ugrid_wx: what Draw_UGRID draws (C112); Dataset.save and the disk (C113) | rendering, menus and dialogs of ugrid_wx |

Not modelled anywhere: the NetCDF library and file system (a file is a list of
variables with dimensions, attributes and values), the cell-tree and KD-tree
libraries (taken as oracles, described where used), floating-point rounding
outside C09, integer overflow, dateutil parsing, plotting, GUI code.

## Trusted base

* The Coq 8.16.1 kernel.
* The reading of the Python sources (and of the numpy, scipy and netCDF4 calls
  in them), recorded definition by definition in the Model files.
* The axioms listed at the end. `vcheck` also reports as "library axioms" the
  constants of the standard library that come from opaque modules
  (`Rdefinitions.RbaseSymbolsImpl.*`, `ssr.ssrunder.Under_rel.*`) and
  `Classical_Prop.classic`; they are in the loaded standard library, but
  `Print Assumptions` lists none of them for our theorems.

No axiom, parameter, admitted proof, functor, module type or kernel switch
occurs in `rocq/theories`.

## Seeded faults

`tools/mutate.py` applies one edit to a Model file in a scratch copy, rebuilds
what depends on it with every proof attempted separately, and records in
`seeded/LOG.jsonl` which theorems no longer hold up: those whose own proof
breaks, and those whose proof names a lemma that broke (found by name, so the
second kind is a heuristic). Theorems written or strengthened because an edit
survived are in `tightened`. Edits that only repair a finding break only the
`_refuted` theorem, and are marked "(finding)".


## Status and findings per property

| id | property | status | note |
|----|----------|--------|------|
| C01 | A Time axis is accepted exactly when it is strictly increasing | proved | Argument combinations that raise before the axis check have their own theorem; c01_time_always_increasing extends the invariant to every later history of assignments. |
| C02 | Time.index_of returns the bracketing interval | proved |  |
| C03 | Time.interp_alpha reproduces the query time and stays within [0, 1] | proved |  |
| C04 | Out-of-range times raise exactly when they should | proved |  |
| C05 | Re-assigning the time-zone offset never changes the instants | proved |  |
| C06 | Displacement is applied at most once in any history | proved |  |
| C07 | Time objects do not share state | partial | Refuted: Time(Time) and Time(ndarray) share the buffer and every shift is in place (also when the constructor raises). Partial: isolation holds for objects built from plain sequences, in every history. |
| C08 | Time equality is an equivalence and equal axes answer alike | proved |  |
| C09 | ISO offset strings denote the offset they are given | partial | Refuted for binary64 (61 minutes prints +01:00: int() truncates 0.99999...). Partial: exact arithmetic for every whole minute; binary64 for every quarter-hour offset within 24 h. |
| C10 | Interpolation in time is exact at samples and convex in between | partial | Refuted in two ways: an interior sampled time is blended with the previous sample, so a masked entry there hides a valid value; a depth-before-time order drops the slices chosen so far. Partial: the sampled-time clause for numeric fields; every other clause in full. |
| C11 | The result cache of Variable.at is bounded and returns the latest stored result | proved |  |
| C12 | Caching in Variable.at is transparent | partial | Refuted: data assignment does not clear the cache, the key ignores options such as extrapolate, and it ignores the array shape. Partial: with no data assignment, one point width and one set of options, every history is answered as without cache. |
| C13 | Depth interpolation returns the interpolated value at each point | partial | Refuted: the last-level path uses a stale or unbound index set, layer data above the first level stays NaN, and an extrapolated point is blended with the deepest level. Partial: every point strictly between levels or masked, for level data and for layer data, also combined with time. |
| C14 | Dimension ordering matches the data's rank | proved |  |
| C15 | Setting data or time keeps the two consistent | proved |  |
| C16 | Default variable names: first candidate wins | partial | The scalar search is proved; the vector search takes the last match of each list (refuted, with the exact behaviour proved). |
| C17 | Assigned faces always index existing nodes | proved |  |
| C18 | One-based face arrays are recognised | partial | Refuted: a one-based array is recognised iff some face uses the last node (proved as iff). |
| C19 | Face neighbour table is sound, complete and symmetric | partial | Refuted for -1-padded mixed meshes (the padding counts as a node, so faces sharing only one node become neighbours). Proved for every rectangular array: pairing in order of visit; neighbour iff shared edge when no edge has more than two sides. |
| C20 | build_edges lists every undirected edge exactly once | partial | Full for arrays without padding; with -1 padding the list contains edges to node -1 (refuted). |
| C21 | build_boundaries lists exactly the sides with no neighbour | partial | Refuted: build_boundaries reuses the face_face table of an earlier mesh. Partial: exact list when the table is absent or belongs to the mesh; for any table, the sides it marks -1. |
| C22 | Face-edge table points at the face's own edges | proved | Proved for every nearest-entry search standing for scipy's cKDTree. |
| C23 | Derived coordinates are the means of their corner nodes | partial | Refuted for -1 padding (averages in the last node) and for a missing edge array. Partial: means of the listed nodes for every other array. |
| C24 | Triangle interpolation weights are barycentric | proved |  |
| C25 | Points outside an unstructured grid interpolate to zero | partial | Refuted: NaN or masked last entries, a flat last triangle, quadrilaterals and plain arrays. Partial: numeric data on triangle meshes, composed with the method for every history of queries. |
| C26 | The simple point search finds the first containing face | partial | Refuted for clockwise faces and for quadrilaterals. Partial: counter-clockwise triangle meshes. |
| C27 | Point-in-triangle test does not depend on orientation | partial | Refuted: with clockwise corners every point is accepted (proved for all points). Partial: counter-clockwise corners, exact set accepted. |
| C28 | Grid location caches are bounded and consistent | proved |  |
| C29 | Location answers follow the current mesh | partial | Refuted: the cell tree and memo tables survive replacing the nodes. Partial: meshes that are not replaced, any history of queries; simple search without memo in any state. |
| C30 | locate_faces has a stable result shape | partial | Refuted: scalar first, array from the memo. Partial: same values, and stable without memo. |
| C31 | UGrid location inference agrees with array sizes | proved |  |
| C32 | Rectangular-grid cell location brackets the point | proved | Also for descending axes (latitudes from north to south) and NaN coordinates. |
| C33 | Rectangular-grid data is matched to its axes | partial | The statement was corrected after reading the function (it selects the axis order, it does not invert coordinates). Refuted for named dimensions: lengths are only checked to be some axis length; such data is proved to be rejected before interpolation. |
| C34 | Rectangular-grid centers and inferred location are consistent | partial | Refuted: edge data raises AttributeError, a vector is compared with both axes. Partial: exact decision table for two trailing dimensions; centers and nodes in full. |
| C35 | Grid class choice follows file and topology contents | partial | Refuted: a file declaring a rectangular type or writing its type in capitals is not believed, and the rectangular class cannot read a file with a topology variable. Partial: every other rule of the decision list, in order of precedence, and what the factory then does. |
| C36 | Flat cell number and (row, column) index are inverse | proved | Grids with at least two node columns. The cell tree's own search is not modelled; the theorems hold for whatever face number it answers. |
| C37 | Masked cells are never located and unmasked ones keep their identity | partial | Center masks of the declared padded shape. Refuted for masks carried by node_lon/node_lat themselves. |
| C38 | Every mask input can be handled | partial | Refuted: a node mask alone, or a center mask without any non-zero raw value, raises UnboundLocalError. |
| C39 | Padding slices and index shifts agree | partial | Slices and shifts agree for all known padding words; the padding guessed from shapes wraps around for shapes that fit none. |
| C40 | SGrid location inference distinguishes the staggered shapes | partial | infer_location compares with the node shape only; stored center/edge shapes are not consulted. |
| C41 | Bilinear interpolation reproduces corners and bilinear fields | partial | node, edge and centre data: whole result of interpolate_var_to_points proved over the reals for points placed in convex cells whose longitude varies along columns; refuted: calling without slices raises ValueError, with precomputed alphas raises UnboundLocalError |
| C42 | The logical coordinates of a point reproduce the point | proved | maps back always; unique and found in convex cells; defined when longitude varies along columns; parallelograms exact |
| C43 | Logical coordinates are defined for every axis-aligned cell | partial | columns running east: proved; rows running east: 0/0 for every point (refuted), node interpolation then always fails its assertion |
| C44 | geo_to_logical gives the position of the point in index space | partial | the two fractions are exchanged (refuted by a node mapped to its neighbour); the exchanged statement is proved |
| C45 | Masked corner handling follows the requested mode | partial | zero and no-mask cases proved; mirror refuses three or more points and leaks hidden data when both are masked; mask applies other points' masks (exact characterisation proved) |
| C46 | Level depth indices bracket the point | partial | Refuted at the last list entry (a point exactly on it gets the last index, and is masked by default). Partial: every other depth, both directions; composed with Variable: fields linear in depth are exact. |
| C47 | Points above the surface or below the bottom follow the boundary conditions | partial | Refuted: a point exactly on the last list entry counts as outside and can be masked. Partial: everything else for level depths; the sigma boundary function in full. Also: a bottom-up axis asked above its surface always makes the Variable raise. |
| C48 | Sigma depth indices bracket the point in its own profile | partial | Refuted for data on layers: points between the last layer centre and the end of the column raise ValueError (proved to raise always). Partial: level data in full, also from the ROMS coefficients. |
| C49 | Depth profile spans exactly the water column | partial | Refuted: the first ROMS transform is not monotone when hc > h. Partial: ends for both transforms and FVCOM; monotone for transform 2, and for transform 1 with hc <= h; FVCOM in full. |
| C50 | A surface-only depth always selects the surface | partial | Refuted: from_netCDF passes surface_index as the name, so -1 is always used. The direct construction is proved. |
| C51 | Depth class choice is unambiguous | proved |  |
| C52 | Point arrays are normalised to one row per point | partial | Accepted shapes, refused shapes (exact) and idempotence in full for up to two proper dimensions. Remarks refuted: an empty 0x2 array comes back as 2x0; three proper dimensions may be refused on the second pass. |
| C53 | Results are aligned with the caller's point layout | proved | Full for points of two proper dimensions; c53_layouts_agree composes it with C52 for any computation that answers one row per point. |
| C54 | Mask variables convert land to True and water to False | proved | Entries are integers with a masked flag. Float dtypes and tokens such as 1.0 are not modelled. |
| C55 | File-variable search precedence | proved | Full, with the precedence rule shown to determine the answer; also search_dataset_for_any_long_name. |
| C56 | Filename/dataset arguments resolve consistently | proved | Full. A str and a PathLike (or a one-element list) naming the same file count as different and give two objects (c56_example); a data file without a grid file raises. |
| C57 | Boundary segments are chained into closed loops | partial | Refuted for mixed directions: bound.insert(p1) raises TypeError (a triangle). Otherwise full: partition for every input that does not raise, closed boundaries (even degree everywhere) never give open chains, and one-way boundaries never raise. |
| C58 | Verdat save/load round trip | partial | Save then load, for boundaries made of closed one-way loops: every point and depth is there to the printed precision, the order is boundary loops then the other points ascending, the boundary segments in old numbering are the given ones, and saving again gives the same lines. Refuted parts: without units the loaded data cannot be saved again (KeyError); open boundary chains are silently dropped. |
| C59 | UGRID file index conventions round trip | partial | Proved for tables of the usual row orientation whose number of rows differs from the expected width, for column-oriented tables of three rows (two for edges) and for missing start_index when the last node is (or node 0 is) used. Refuted: a table of exactly 3 faces or 2 edges is transposed, Fortran-ordered quads are not turned back, -1 without flag_values becomes -2 (and the load raises ValueError), and the guess of start_index fails when the last node is unused. |
| C60 | SGRID padding and axes attributes parse faithfully | partial | Padding entries, axes and vector axis parse exactly for legal names, ValueError exactly when no entry occurs; refuted for dimension names with characters outside [a-zA-Z0-9_] and for axis coordinate names with digits, which are cut or lost. |
| C61 | Vectors keep their length under rotation and cell averaging is exact | proved | Rotation over exact reals (standard library sine and cosine); averages over exact rationals with masked entries. |
| C62 | Ray-casting point-in-polygon is independent of vertex start and direction | proved | All parts, over exact rationals; also convex polygons of any size, cuts along diagonals, fans, bounding boxes. Points on the boundary are not covered by the property. |
| C63 | Item cache of SGridVariable/UVar is bounded | partial | Bounded and truthful for data that is not replaced and items told apart by str(). Refuted: stale answers after replacing a UVar's data, long index arrays with equal str(), UMVar.add_var after indexing, UMVar with equal names. |
| C64 | Loading level depths puts the shallowest level at the surface and keeps the axis usable | partial | Refuted for negative heights (the deepest level is moved to 0 and the axis is no longer monotone). Partial: non-negative levels in full. |
| C65 | Rectangular-grid interpolation is bilinear in either orientation | partial | Refuted: masked entries count as 0, center data is rejected. Partial: numeric tables in full; scipy's RegularGridInterpolator is modelled by its documented linear behaviour. |
| C66 | Grid arguments are found by name and normalised | partial | Refuted: three face-major triangles are transposed, an explicit topology is looked up in lower case, composite keys ignore their value, a missing node mask is advertised. Partial: all other face arrays; coordinates and staggered arguments in full. |
| C67 | A cell search does not depend on earlier searches | partial | Refuted for single points after an equal one-row array query, and for a change of use_mask. |
| C68 | Cell-centred bathymetry is averaged to the nodes | partial | Mean of four cells, bounds and shape for cells padded on both sides; refuted for cells inside the nodes, whose average fits no location. |
| C69 | SGRID coordinate and mask discovery | partial | Topology variable, node coordinates (sound, found iff present, unique), coordinates by location (named or guessed) and masks are characterised; refuted for names containing an x (lat_vertex, flux), for double spaces in the coordinates attribute and for masks of locations of equal shape. |
| C70 | SGRID variable slicing, axes and location | partial | Slices, averaging axes, locations and loading are characterised for files declaring face and vertical dimensions; refuted for padding "high" (keeps one entry), files without vertical_dimensions (load fails) and dimensionless variables with a grid attribute (UnboundLocalError). |
| C71 | UGRID mesh discovery and save/load round trip | partial | Discovery, coordinates, consistency of what loads and the errors are proved for every file. The round trip is proved for names without blanks, tables not of exactly 3 (2) rows, and without boundary coordinates and face_face tables, which are lost. Data variables, dtype and storage layout are not modelled. |
| C72 | A vector's values are the columns of its components | partial | Columns, first exception, cache bound and origin of every answer are proved for every history. Transparency is proved without assignments to component data, with one point width and one set of options; the assignment case is refuted. |
| C73 | Callers cannot change cached answers | partial | Proved for vectors with any writes (keys assumed to identify requests), and for single variables with number writes; refuted for masking an entry of a single variable's answer, which the read-only flag of a masked array does not prevent. A caller who sets the writeable flag back is not modelled. |
| C74 | Components, time and units of a vector stay consistent | partial | Constructor, unit and accepted time assignments are proved. Refuted: TypeError/IndexError instead of ValueError without components, a rejected time leaves earlier components changed, a sequence raises AttributeError after changing the components, a time given to the constructor is not given to the components, and 'mm' reads back as 'm'. |
| C75 | Times read from a file are the file's instants | partial | Proved with the date and unit parsers (dateutil, cftime) as arbitrary functions. Units with a non-zero offset are refuted: num2date already converts to UTC, the offset is then recorded as well, so every instant is off by exactly that offset (c75_instants_off_by). |
| C76 | A data variable finds its time axis | partial | Search, agreement and errors are proved for every file. Isolation of the constant time is refuted: it is one object, so an offset or displacement set by one user is seen by all. |
| C77 | A variable loaded from a file has the right place, time and depth | partial | Location, time, fields, exact acceptance and default names are proved for every file. The depth rule is proved when no time is given, refuted when it is: a given time is taken to mean a time dimension. Depth.from_netCDF is an arbitrary outcome here; file arguments are C56. The time of a variable whose axis is in any zone is the numbers of the axis as UTC instants (c77_time_data); the offset that C75 speaks of is only recorded beside them. |
| C78 | A dataset holds exactly the file's data variables | partial | Soundness, completeness, order and exact failure are proved. Refuted: on a rectilinear grid a scalar variable, or one with an unknown location attribute, makes the whole load fail; and any word of any attribute of the mesh variable counts as a grid name, so a variable called 'data' in a file written by UGrid.save is not loaded. |
| C79 | A saved dataset reads back | partial | The round trip is proved for one-dimensional data on grids without boundary coordinates, with mesh names free of blanks and of 'time' and variable names that are not words of the mesh attributes; acceptance is characterised exactly. Refuted: loaded data does not save back under its keys (the long name is used, and two equal ones fail), a _FillValue attribute cannot be saved, boundary coordinates come back as data variables, a mesh named after time cannot be loaded again, stale mesh attributes override the right ones. Keys, dataset attributes and the netcdf3 format are lost (proved as facts). netCDF4 itself is modelled as named variables with attributes; repeating one value over a dimension is not modelled. |
| C80 | Nearest-point lookups give nearest points and their values | partial | The k-d tree of scipy is any function that finds a nearest point of its tree (hypothesis Searches, shown satisfiable by a linear scan). Proved for grids whose tree was built beforehand and whose coordinates did not change since. Refuted: locate_nearest without build_kdtree always raises KeyError, trees go stale when coordinates change, an unmasked -1 makes empty slices (numpy 2 unsigned wrap-around), and a variable whose location cannot be inferred is read at shifted places. Masked index rows in nearest_var_to_points and coordinates with nan are not modelled. |
| C81 | A staggered grid comes back from the file it was saved to | partial | Proved: topology attributes, node and center coordinates and angles come back for every well-formed file whose grid has face and node coordinates of distinct names, a scalar topology variable and no spaces in names; descriptions of other variables come back but for the location. Refuted in general form: all values of other variables (edge coordinates, masks, data) are lost, attributes of coordinates and location attributes are not written, and a grid without face coordinates cannot be saved (TypeError). Data types, scale factors, groups and numpy broadcasting of coordinates are not modelled; variables named like attributes of SGrid are left out; when several errors are possible the one raised first may differ. |
| C82 | Equality of grids is an equivalence and equal meshes answer alike | partial | Refuted: a copy of a grid with nan in a compared array is not equal to it (general statement); masks and all other attributes of staggered grids play no part; comparing staggered grids with unlike center and node sizes raises IndexError. Entries of one array are all compared exactly; comparisons of a text array with a number array are false (numpy 2). Shapes of different lengths in the guess of face paddings are not modelled. |
| C83 | Computed grid angles are directions on the sphere | partial | Numbers are exact reals; signed zeros are not told apart (at coincident or antipodal points numpy's arctan2 may answer 180 instead of 0). The direction is specified by dot products with the east and north unit vectors and shown unique. Partial: rows of one cell get no angle, and masks are ignored (both stated in general form). |
| C84 | Regridding reads the source at every point of the new grid | partial | The source's at, its depth profile and the reading of one level are arbitrary functions (their own properties are C13-C30). Values and levels are proved for staggered sources and destinations, at the nodes or at centers arranged like the nodes. Refuted of the code, each in general form: masks are lost once there is a time, a destination outside the source is not noticed, values read at centers are labelled as node values, other centers are rejected, a depth without time is lost from the data, the depth transform is lost, and a variable is never returned unchanged. Everything else it refuses is listed with its exception. |
| C85 | A vector variable is loaded as its components | partial | The grid is given; reading depths from files may answer or raise; names have no slashes. Components, order, time, units and refusals are proved in general. That a component equals the variable loaded by itself holds for variables on the same time axis with as many dimensions as the first (c85_alone_partial); otherwise it is refuted: the first variable's time axis and depth are imposed on the others, and four-dimensional data without time axis get a depth only as components. |
| C86 | The constant variable is constant everywhere | partial | Over the reals; the value is a number; the cell search is a parameter required to answer a containing cell and to find every point strictly inside the box. Inside the box and for filled answers proved in general, also after any history of requests with one number of coordinates. Refuted: at the poles (beyond 89.95 degrees) and beyond 360 degrees of longitude the answer is masked; the cache keeps no note of unmask, so a filled array asked for after a masked one is masked, nor of the number of coordinates, so two points can get three values. |
| C87 | Depth variables are found in ROMS, FVCOM and level files | partial | Over the search of SearchModel (C55) with the tables of the three classes. ROMS files proved. FVCOM and level files under the condition that the labels belong to one variable (no variable labelled with a single letter, for levels). Refuted: sigma layers and sigma levels have the same label, so whenever a variable carries it both roles get the same variable and data on levels is refused; the label of depth levels is a string whose letters are searched, so the standard name depth is never found and a variable labelled t is taken before one named depth. |
| C88 | Sigma depths are loaded with time, bathymetry and free surface on nodes | partial | What was found, the grid (its infer_location) and the date parsers are parameters; of the values only the origin is kept. Fields, time, bathymetry, the no-zeta case, outer centers and meshes on nodes proved. Refuted: inner centers (averages fit nothing), the place of zeta is decided by the bathymetry's, bathymetry passed in with zeta in the file raises UnboundLocalError, a zeta without time raises TypeError, terms given as documented (component to variable name) are not read. |
| C89 | A mesh loaded by variable names is the mesh in the file | partial | Proved for more faces than nodes per face and a mesh that uses its first node. Refuted: with fewer faces than nodes per face the rows and columns are exchanged; a mesh that does not use its first node keeps the file's base, and a zero-based one whose smallest number is 1 loses it, neighbours being shifted alike; face centers are stored in the type of the node longitudes; attributes expected with a capital letter are never found. The post-processing callback and the reading of masked values are not modelled. |
| C90 | Grid drawings show the sides of the grid and nothing else | partial | What is handed to matplotlib and shapely, over rational coordinates; the rendering is not modelled. Refuted: plot_ugrid exchanges rows and columns of a mesh of exactly three faces; the wireframe of faces with four nodes misses two sides and draws a diagonal; three faces of nv stored by columns, or a mesh that does not use its first node, are misread. |
| C91 | A click on the map finds the face drawn there | partial | The cell tree is a parameter assumed to find a face that contains the point, if any. Proved for longitudes in [0, 360) or [-180, 180] when no face crosses the 180th meridian. Refuted: faces across it, meshes with both negative longitudes and longitudes beyond 180, nodes at exactly 360, and the documented Fortran node numbers (they count from zero). |
| C92 | Loading a staggered grid keeps its parts whatever the variables are called | partial | Proved for variables whose names are not reserved by the grid object. Refuted for the others: a variable named like a part (for example node_lon or angles) replaces it, one named like a read-only property (info, nodes, centers, non_grid_variables, and shape of Grid_S) makes loading fail, and variables or grid_variables are overwritten by the lists. Names with two leading underscores are not modelled. |
| C93 | A dataset holds the parts it was made of or read from its file | partial | Reading the grid, variables and attributes of a file are parameters (other claims). Refuted: Dataset(file) leaves time and depth unset and ignores the grid topology passed, refuses attributes that its documentation says are ignored, and dicts passed in are shared rather than copied. |
| C94 | A variable holding samples of a field answers with that field | partial | Proved for levels depths, with and without time and depth axes, on meshes and rectangular grids, numbers only. The cell tree's answer is a parameter: -1 or a face that holds the point. Sigma depths on meshes are C97. Staggered grids are C98. Masked data is C109. Data on the layers between the levels is LayerProps; beyond the first level, where answers are not masked, it is never given a number, and past the last level the whole question has no answer (LAboveProps). With levels listed downwards every depth is covered for layers (LAnyProps). Any depth is covered where answers beyond the levels are masked or taken from the first level (AnyDepthProps). With levels listed upwards a point at or above the last is never given a number, and points of that kind alone raise (UpProps). Refuted at the deepest level, when answers there are not masked: the points of the level above show the deepest value and the point itself NaN, or the call raises. |
| C95 | A depth object has the settings it was given | partial | Keyword calls. Proved for terms that do not carry the names of settings or properties; refusals, ends, sizes and the name search are exact. Refuted: the bottom condition of surface-only and level depths can only be set under a misspelled keyword, level and sigma classes take the conditions under different keywords and drop the other's, surface_index cannot be set as the factory's warning asks, a surface index passed to a level or sigma object has no effect, the name search never looks at the names listed in its tables, and _find_required_depth_attrs of level depths always raises TypeError. |
| C96 | Objects made without a name get different names | partial | Proved for any history and any subclasses when the classes count and have different names (c96_differ_partial); numbers are exact. Refuted: level depths are never counted, so all made without a name are called the same, and a default name can equal a name given or the default name of an equally named class. A grid given name=None explicitly is not modelled. |
| C97 | A variable on terrain-following levels answers from the water column at the point | partial | Proved for numbers, levels listed from the surface down, columns that deepen and data that samples a field linear over each face and in time. Points beyond the bottom are covered when the bottom condition masks them (extrapolated ones are C13's refuted case), layer data above the surface likewise. A field linear in depth is answered exactly. Refuted: sigma and depth are interpolated before they are multiplied, so where both vary a field sampled exactly is answered by another number; and plain arrays with a free surface from the file have no mask, so every question is an AttributeError. |
| C98 | A variable on a staggered grid answers from the data of its location at the time and depth asked | partial | Proved for all four locations without depth and with layer data, for nodes and edges on levels, and for centers on levels asked one point at a time. The land mask may not change with time, nor with depth on levels; edges with the behaviour zero over land. Refuted for centers on levels: the grid answers a column, numpy combines it with the vector of depth weights into a table, and every point of a layer shows the column of the first point of the question in that layer. The cell tree's answer is a parameter. Sigma depths over staggered grids are C99. Land masks that change with time or depth are C115. Asked at any depth, with levels listed downwards: c98_any_depth (SAnyDepthProps). With levels listed upwards, points at or above the last are never given a number and raise when asked alone (SUpProps); files asked below the last only: SUpWaterProps. Missing: the other behaviours on edges. |
| C99 | A variable on ROMS levels over a staggered grid answers from the water column over each point | partial | Proved for nodes and edges on levels, for every location on layers, and for centers on levels asked one point at a time (several points: refuted in C98). Fields linear in depth are answered exactly for node data when the levels are proportional to the water depth (no critical depth, or the first transformation under a still surface); refuted with a critical depth, where interpolating along levels distorts them. Missing: points above the surface with extrapolation (they raise, C13 and C47), extrapolation below the bottom for layers, NaN in profiles, stretching arrays of length one. Land masks that change with time or level are C115. |
| C100 | The inspector window highlights the last selection and records every one | partial | The session is proved for every history; the grid search is a parameter that answers a face of the mesh. Refuted: the mark in the middle of a face stays when another is selected; the spill is drawn at its longitude as given while the mesh is moved to -180..180; the middle of a face across the 180th meridian is recorded far away; node numbers count from zero although documented as Fortran numbers; files whose names differ in their suffix share one log. Styles, texts, badge offsets, printing and choosing a backend are not modelled; a disk error is RuntimeError. |
| C101 | Currents on a staggered grid do not jump across the sides of cells, nor flow through coasts | proved | Composition of C72, C98 and C99. For the edge behaviour 'zero' and land masks that do not change with time or depth. The answers are continuous across a side only in the direction that crosses it (as staggered data are). The cell search is a parameter. |
| C102 | A file with a mesh, opened, answers with the field it samples | partial | Composition of the models of C35, C51, C59, C64, C71, C75, C77, C78, C87 and C94 on one file. Masked data is C109. Given that the dataset opens (C78 says when not). The times in the file may be in any zone, the questions are in UTC (c102_zone). With levels listed downwards every depth is covered: above the first level the answer is that level's, from the last level down it is masked (AnyDepthProps). With levels listed upwards, points at or above the last are never given a number and raise when asked alone (UpProps); asked below the last only, every question is answered, masked below the deepest (UpWaterProps). Data on the layers between the levels: c102_layers_nodes_partial (LFileProps), for points within the levels or below the deepest; c102_layers_any_depth_nodes_partial (LAnyProps) has every depth where levels are listed downwards, next to each other: NaN above the surface, masked below the deepest. Refuted for layers: above the surface the answer is NaN although it should be extrapolated, and with levels listed upwards a point at the surface makes the whole question raise IndexError; for every file such points are never given a number, and raise (c102_layers_unanswered, c102_layers_past_raises, LAboveProps). Refuted: with such a point in the question, points of the layer below are answered with the value at the surface; depth data without a time axis is answered from its first level whatever the depth of the points; levels under a name that is not one of three make every question raise AttributeError; an axis as long as there are faces is loaded as data. The cell search is a parameter. |
| C103 | A grid object keeps its own tables | partial | Proved for programs in which each array is handed over or edited at most once (own tables), and, for tables that fit, in which nodes and faces are not replaced under other tables. Refuted: faces numbered from one are renumbered in the caller's array, which changes another grid that holds it, and also when the constructor raises afterwards; the caller's later edits show in the grid unchecked; longitudes without latitudes are dropped silently; replacing nodes or faces leaves stale tables; deleting nodes leaves tables and coordinates; deleting faces leaves face coordinates and drops edge coordinates; a grid without faces or edges has one line through all its nodes; padding draws lines to the last node. Missing: masked arrays, grid_topology. |
| C104 | A file with a regular grid answers with the field it samples | partial | Proved: the grid; that the file opens when every variable is sampled on the grid or elsewhere; exactly which variables prevent it; the variables; the answers and sessions for unmasked data, with times in any zone and questions in UTC, within DepthAsked, and at any depth for levels listed downwards (AnyDepthProps). Refuted: a variable that is a single number (a CF grid mapping) prevents opening, and so does an axis one longer than the rows and as long as the columns; data with rows by longitude and without a location attribute is left out; axes in capitals, or dimensions called otherwise than the axis variables, open and never answer. Masked data is C109. With levels listed upwards, points at or above the last are never given a number and raise when asked alone (UpProps); asked below the last only, every question is answered, masked below the deepest (UpWaterProps). Data on the layers between the levels: c104_layers_partial (LFileProps); above the first level never a number, and past the last level of levels listed upwards no answer at all (LAboveProps). Every depth, levels listed downwards: c104_layers_any_depth_partial (LAnyProps). |
| C105 | A file with a staggered grid answers with the data of the right points | partial | Proved: the grid and its names; that the file opens when every variable is sampled on the grid, nowhere on it, or part of it; what is left out; place and instants of the variables; the answers over time at all points, on levels at nodes and edges (centers one point at a time, see C98), without time; fields at the nodes. Refuted: velocities on the edges between centers inside the nodes are never opened (also proved for all files: c105_inner_edges), nor are velocities in a file without coordinates for the edges, and data on as many centers as nodes is taken for data on the nodes although the grid knows the padding. Masks that change with time or depth are C115. At any depth when the levels are listed downwards (SAnyDepthProps). With levels listed upwards, points at or above the last are never given a number and raise when asked alone (SUpProps); asked below the last only, every question is answered (SUpWaterProps). Files with a topology variable are C108. |
| C106 | A file of ROMS answers with the layer of the water over the point | partial | Proved: that the file opens, what is left out, place, instants and depth of the variables; answers on layers and levels, for several points or one, over time only, without time; that files without such levels are read as in C105. Refuted: the vertical transformation in the file (Vtransform) is never read, and where it is 1 answers come from another layer; data over the depth with another number of times than the free surface makes the file unreadable; bathymetry at the centers of the cells is averaged over cells and the file unreadable. Masks that change with time or level are C115. Missing: depths above the surface when it is extrapolated (C99), centers on levels for several points (C98), FVCOM levels, columns that do not fall. |
| C107 | A file of FVCOM answers with the level or layer of the water over the point | partial | Proved: that the file opens, that its grid is the mesh, what is left out, place, instants and depth of the variables; answers on levels (exact for data linear in depth), on layers, and over time only, at nodes and faces; that with the label ocean_sigma/general_coordinate one variable is read for levels and layers. Refuted: in a file with that label on both tables data on the levels is answered at the depths of the layers; data on the layers above the first level is not a number and not masked; data over the depth with other times than the free surface makes the file unreadable; the tables of sigmas are opened as data and answer with their last row. Masked data is C109. Missing: fewer data than levels, as many layers as levels unless they are the same, files where a topology variable describes the mesh together with such levels, bathymetry not at the nodes. |
| C108 | A file with an SGRID topology variable answers with the data of the right points | partial | Proved: the grid and the words by which its variables are known; that the file opens when every variable is mentioned, nowhere on the grid, or properly sampled; what is left out; place and instants of the variables; the answers over time at all points, on levels at nodes and edges (faces one point at a time, see C98), without time; at any depth when the levels are listed downwards (SAnyDepthProps), and for levels listed upwards no number at or above the last (SUpProps), every question answered below it (SUpWaterProps); fields at the nodes; what is answered when the padding of the columns is listed first (c108_columns_first). Refuted: listed in the order of the convention, columns first, different paddings are exchanged and answers come from another cell; a file without vertical_dimensions, which the convention does not ask for, cannot be opened; nor can one with a variable called shape, info, nodes, centers or non_grid_variables. Missing: node coordinates guessed from dimensions, variables with the names of other attributes of the grid object. Masks that change with time or depth are C115. |
| C109 | Missing values show exactly where a sample in use is missing | partial | Proved for depths within DepthAsked, and for meshes and their files at any depth (AnyDepthProps; levels listed upwards below the last: UpWaterProps): meshes (nodes missing together on the faces asked, nodes counted as zero, faces), rectangular grids, and the same for files with a mesh, files of FVCOM (data over time, on their levels and on their layers) and files with a regular grid. Refuted as users expect it: a face with one missing corner answers with a number that is too small; at the instant of a complete sample the answer is missing when the sample before is; above the first level it is missing when the deepest level is, and at the depth of a level when the next one is; outside the mesh the answer is zero, or missing when the last face is; over two axes data that are all missing answer zeros. Staggered grids are C115. Layers between levels of fixed depths: LayerProps (meshes), LMaskProps (rectangular grids), LFileProps (faces in files). Missing: masked bathymetry, free surface or sigmas. Layers at any depth, levels listed downwards: LAnyProps. |
| C110 | A dataset that is saved and opened again answers as before | partial | Proved for meshes whose tables are not of three faces, two edges or two boundaries, whose name is one word not mentioning time, and variables with one value per element (time and depth are not saved). Refuted without: a mesh of three triangles opens with other faces, one of them with the same node twice; a variable asked under its key in the dataset is not found. That saving what was opened gives the same file needs long names that equal the names (c79_resave_refuted) and no table of neighbours or of edges of faces. Missing: grids other than meshes, masked data, data with layers. |
| C111 | A report says what the object holds | partial | Proved for texts of one line; dedent is modelled line by line. Refuted: a dataset on a regular grid, with a vector, or on a mesh without faces cannot report at all; a text with a line break leaves the indentation of the source in the report; nothing and the text None look the same; check_element_equal answers arrays by an array. Texts of dates, grid objects and types are given. Taking the indentation off is c111_dedented (DedentProps). |
| C112 | The mesh viewer draws every face, edge and node in its place | partial | Proved for meshes without padding. Refuted: a face padded with -1 gets the last node of the mesh as a corner. Colours, menus and dialogs are not modelled; an empty row, whose mean is nan, is excluded. |
| C113 | A save changes its own file only, and a save that fails changes nothing | partial | Proved: refused saves, what a save leaves and where, histories, and (for the datasets of C110) the answers after any history. Refuted in general form: a save that fails has emptied the file first, always so on grids other than meshes, which have no save; paths that are not strings are refused; an open dataset that is passed in is closed. Files given as open datasets are new and empty; what a broken file still holds, and saving over the file that the data is read from, are not modelled. |
| C114 | A vector read from a file answers with the dataset's variables, column by column | partial | Proved for components that the dataset holds, on one time axis, with as many dimensions as the first and known locations (Together), for all six kinds of files; sessions and fields for meshes. Refuted: a component on another time axis answers at the instants of the first; a component with an unknown location is answered by the dataset and refused by the vector. Missing: vectors without a time axis of data with levels, given times and depths (C85), angle rotation (C61). |
| C115 | Missing data on a staggered grid: answers are made of the samples in use, and missing when one of them is | partial | Proved for data over time and on layers at all four locations, on levels at nodes and edges (centers one point at a time, see C98); when answers are missing at centers and nodes; on the levels and layers of ROMS; the same for both kinds of files and for files of ROMS. Refuted as users expect it: at the instant of a complete sample the answer is missing when the sample before is; a cell with one missing corner answers with a number that is too small. At any depth when the levels are listed downwards (SAnyDepthProps). With levels listed upwards no number is given at or above the last whatever is missing (SUpProps); below the last only: SUpWaterProps. Missing: bathymetry and free surface with masks that change with time. |

Theorems per property, and their files:

* C01 (TimeProps.v): c01_time_accepts_iff_increasing, c01_time_bad_arguments, c01_time_always_increasing
* C02 (TimeProps.v): c02_index_of_counts_earlier, c02_index_of_single, c02_index_is_unique
* C03 (TimeProps.v): c03_alpha_reproduces_query, c03_position_strictly_increasing
* C04 (TimeProps.v): c04_raises_iff_out_of_range, c04_extrapolated_values, c04_single_time_alpha
* C05 (TimeProps.v): c05_tz_history_preserves_instants, c05_tz_history_total_move
* C06 (TimeProps.v): c06_displacement_applied_once, c06_displacement_errors, c06_displaced_object_refuses
* C07 (TimeProps.v): c07_time_from_time_refuted, c07_caller_array_refuted, c07_failed_constructor_mutates_refuted, c07_alias_effect, c07_isolation_partial, c07_own_assignment_partial
* C08 (TimeProps.v): c08_eq_characterised, c08_eq_equivalence, c08_equal_answers
* C09 (TimeProps.v): c09_iso_exact_partial, c09_iso_none, c09_iso_quarter_hours_partial, c09_iso_whole_minutes_refuted
* C10 (VariableProps.v): c10_sampled_time_partial, c10_sampled_time_refuted, c10_between_samples, c10_blend_is_between, c10_constant_field, c10_extrapolated, c10_out_of_range, c10_single_time, c10_depth_before_time_refuted
* C11 (VariableProps.v): c11_cache_bounded, c11_capacities, c11_at_cache_bounded, c11_hit_is_latest, c11_store_effect, c11_keeps_the_newest
* C12 (VariableProps.v): c12_data_assignment_refuted, c12_options_refuted, c12_shape_collision_refuted, c12_transparent_partial
* C13 (VariableProps.v): c13_levels_partial, c13_extrapolated_first_level, c13_time_and_depth_partial, c13_layers_partial, c13_last_level_always_raises, c13_last_level_refuted, c13_layer_above_refuted, c13_extrapolated_mask_refuted
* C14 (VariableProps.v): c14_ordering_matches_rank, c14_ordering_defined_iff, c14_explicit_ordering_wins
* C15 (VariableProps.v): c15_history_consistent, c15_time_accepted_iff, c15_time_rejected, c15_data_rejected, c15_data_accepted
* C16 (VariableProps.v): c16_first_candidate, c16_vector_last_candidate, c16_vector_precedence_refuted
* C17 (UGridProps.v): c17_accepted_is_valid, c17_one_based_shifted, c17_zero_based_unchanged, c17_else_rejected
* C18 (UGridProps.v): c18_recognised_iff_last_node_used_partial, c18_one_based_refuted
* C19 (UGridProps.v): c19_sides_are_paired_in_order, c19_neighbour_iff_shared_edge, c19_minus_one_iff_unshared, c19_symmetric, c19_neighbour_is_another_face, c19_table_shape, c19_padding_refuted
* C20 (UGridProps.v): c20_edges_are_sides, c20_every_side_is_listed, c20_no_duplicates, c20_padding_refuted
* C21 (UGridProps.v): c21_boundaries_are_lonely_sides_partial, c21_boundaries_follow_the_table, c21_deleted_faces_partial, c21_stale_table_refuted
* C22 (UGridProps.v): c22_face_edges, c22_after_build_edges
* C23 (UGridProps.v): c23_coordinates_are_means_partial, c23_corners_are_the_listed_nodes, c23_mean_facts, c23_padding_refuted, c23_no_edges_refuted
* C24 (UGridProps.v): c24_weights_reproduce_the_point, c24_nonnegative_iff_inside, c24_linear_fields_exact, c24_at_the_corners, c24_value_between_corners
* C25 (UGridProps.v): c25_face_data_partial, c25_node_data_partial, c25_interpolate_composes, c25_nan_outside_refuted, c25_flat_last_face_refuted, c25_quads_refuted, c25_plain_array_refuted, c25_location
* C26 (UGridProps.v): c26_simple_search_partial, c26_first_match, c26_clockwise_refuted, c26_quad_refuted
* C27 (UGridProps.v): c27_counter_clockwise_partial, c27_near_zero_is_inside, c27_flat_triangle, c27_clockwise_accepts_everything, c27_orientation_refuted
* C28 (UGridProps.v): c28_ugrid_tables_bounded, c28_ugrid_store_effect, c28_ugrid_hit_is_latest, c28_ugrid_keeps_the_newest, c28_sgrid_tables_bounded, c28_capacities
* C29 (UGridProps.v): c29_unreplaced_mesh_partial, c29_simple_without_memo, c29_replaced_nodes_refuted, c29_replaced_nodes_simple_refuted
* C30 (UGridProps.v): c30_second_answer_partial, c30_without_memo_stable, c30_scalar_then_array_refuted
* C31 (UGridProps.v): c31_decision_table, c31_scalar_data, c31_sizes_agree
* C32 (RGridProps.v): c32_cell_or_minus_one, c32_the_cell_is_unique, c32_unsorted_axis_rejected
* C33 (RGridProps.v): c33_declared_order, c33_order_by_length, c33_unnamed_accepted_iff, c33_square_unnamed_rejected, c33_foreign_name_rejected, c33_foreign_length_rejected, c33_named_lengths_refuted, c33_wrong_footprint_never_interpolated
* C34 (RGridProps.v): c34_centers, c34_nodes, c34_infer_location_partial, c34_own_location, c34_edges_refuted, c34_vector_refuted, c34_scalar_rejected
* C35 (GridTypeProps.v): c35_explicit_type, c35_topology_given, c35_global_attribute_partial, c35_topology_variable, c35_by_variables, c35_declared_rectangular_refuted, c35_capitals_refuted, c35_factory_reads_partial, c35_factory_constructs, c35_rectangular_reader_refuted
* C36 (SGridProps.v): c36_faces_are_cells, c36_flat_bijection, c36_masking
* C37 (SGridProps.v): c37_unmasked_cells_only, c37_masked_coordinates_refuted
* C38 (SGridProps.v): c38_build_partial, c38_unassigned_mask, c38_wrong_shape, c38_every_mask_refuted
* C39 (SGridProps.v): c39_slice_and_shift, c39_unknown_word, c39_guessed_padding, c39_guessed_both, c39_guess_rejects_refuted, c39_by_location, c39_default_edges
* C40 (SGridProps.v): c40_infer, c40_too_few_dimensions, c40_stored_shapes_partial, c40_stored_shape_refuted
* C41 (SGridInterpProps.v): c41_weights, c41_node_values, c41_exact_at_nodes, c41_affine_exact, c41_bilinear_and_bounded, c41_edge1_values, c41_edge2_values, c41_center_values, c41_default_slices, c41_call_forms_refuted
* C42 (SGridInterpProps.v): c42_inverse_matrix, c42_maps_back, c42_finds_the_place, c42_unique_place, c42_defined, c42_parallelogram
* C43 (SGridInterpProps.v): c43_columns_east_partial, c43_rows_east, c43_either_axis_refuted, c43_rows_east_interpolation
* C44 (SGridInterpProps.v): c44_fractions_exchanged_partial, c44_exact_value, c44_node_index_refuted
* C45 (SGridInterpProps.v): c45_no_masked_value, c45_zero, c45_mirror_partial, c45_mirror_many_points, c45_mirror_refuted, c45_mask_exact, c45_mask_one_point_partial, c45_mask_refuted, c45_outside_and_errors
* C46 (DepthProps.v): c46_ascending_partial, c46_descending_partial, c46_last_level_refuted, c46_linear_field
* C47 (DepthProps.v): c47_levels_ascending_partial, c47_levels_descending_partial, c47_within_masked_refuted, c47_descending_surface_raises, c47_sigma_conditions
* C48 (DepthProps.v): c48_levels_partial, c48_roms_column, c48_wrong_length, c48_rows_safe, c48_layers_raise, c48_layers_raise_either_way, c48_layers_refuted
* C49 (DepthProps.v): c49_roms_ends, c49_roms_monotone_partial, c49_roms_transform1_refuted, c49_fvcom_ends, c49_fvcom_monotone
* C50 (DepthProps.v): c50_surface_only, c50_from_file_ignores_index, c50_from_file_refuted
* C51 (DepthProps.v): c51_choice, c51_sigma_support
* C52 (PointsProps.v): c52_rows, c52_columns, c52_single, c52_small, c52_refused, c52_idempotent, c52_empty_refuted, c52_three_dimensions_refuted
* C53 (PointsProps.v): c53_none, c53_columns, c53_rows, c53_rows_vector, c53_columns_vector, c53_small, c53_transposed_exactly, c53_refused, c53_layouts_agree
* C54 (MaskProps.v): c54_entrywise, c54_flags, c54_flags_total, c54_unreadable_values, c54_option, c54_plain
* C55 (SearchProps.v): c55_precedence, c55_precedence_unique, c55_roles, c55_can_create, c55_any_long_name
* C56 (SearchProps.v): c56_dataset, c56_same_object, c56_two_files, c56_missing
* C57 (ChainProps.v): c57_partition, c57_closed, c57_direction_refuted, c57_only_exception, c57_one_way, c57_loops, c57_first
* C58 (VerdatProps.v): c58_round_trip, c58_exact, c58_saved_again, c58_no_units_refuted, c58_open_chains_refuted, c58_one_point_boundary, c58_boundary_count
* C59 (UFileProps.v): c59_rows_partial, c59_columns, c59_no_start_zero, c59_no_start_one, c59_three_faces_refuted, c59_quads_refuted, c59_minus_one_refuted, c59_guess_refuted
* C60 (SAttrProps.v): c60_entries, c60_written, c60_none, c60_outcome, c60_odd_names_refuted, c60_axes, c60_axes_round_trip, c60_axes_digits_refuted, c60_axes_lost_refuted, c60_vector, c60_vector_total
* C61 (VectorProps.v): c61_length, c61_vector_sum, c61_compose, c61_back, c61_direction, c61_masked, c61_average
* C62 (RayProps.v): c62_rotation, c62_reversal, c62_moved, c62_triangle, c62_convex, c62_cut, c62_fan, c62_box, c62_rows
* C63 (ItemProps.v): c63_bounded, c63_answers, c63_same_data_partial, c63_new_item, c63_group_partial, c63_not_joined, c63_replaced_refuted, c63_long_index_refuted, c63_added_refuted, c63_same_name_refuted
* C64 (DepthProps.v): c64_levels_from_file_partial, c64_negative_levels_refuted
* C65 (RGridProps.v): c65_interpolation_partial, c65_bilinear_values, c65_masked_refuted, c65_center_data_refuted
* C66 (GridTypeProps.v): c66_coordinates, c66_coordinate_topology, c66_faces_partial, c66_three_faces_refuted, c66_staggered, c66_unstructured, c66_staggered_topology, c66_topology_case_refuted, c66_composite_key_refuted, c66_topology_lower_case, c66_phantom_mask_refuted
* C67 (SGridProps.v): c67_history_partial, c67_cache_bounded, c67_history_refuted
* C68 (VectorProps.v): c68_four_cells, c68_bounds, c68_shape, c68_inner_cells_refuted, c68_at_nodes
* C69 (SVarProps.v): c69_topology_variable, c69_topology_error, c69_node_coordinates, c69_node_coordinates_found, c69_node_coordinates_unique, c69_vertex_refuted, c69_flux_refuted, c69_by_location, c69_no_location, c69_double_space_refuted, c69_attr_coordinates, c69_guessed_by_location, c69_masks, c69_equal_shapes_refuted
* C70 (SVarProps.v): c70_slicing, c70_slicing_total, c70_cut_back_partial, c70_high_refuted, c70_axes, c70_scalar_refuted, c70_location, c70_edges, c70_declared_location, c70_coordinates, c70_loads_partial, c70_no_vertical_refuted
* C71 (UFileProps.v): c71_only_mesh, c71_named_mesh, c71_no_mesh, c71_coordinates, c71_missing, c71_one_coordinate_refuted, c71_round_trip_partial, c71_three_faces_refuted, c71_two_edges_refuted, c71_lost_refuted, c71_blank_name_refuted, c71_loaded_consistent, c71_coordinates_sound, c71_save_fits
* C72 (VVarProps.v): c72_columns, c72_columns_unique, c72_fresh_or_seen, c72_bounded, c72_transparent_partial, c72_component_data_refuted, c72_points
* C73 (VVarProps.v): c73_vector_answers_safe, c73_variable_numbers_partial, c73_variable_mask_refuted
* C74 (VVarProps.v): c74_init, c74_init_accepts, c74_one_variable, c74_no_variables_refuted, c74_set_time, c74_set_time_refused_partial, c74_set_time_not_atomic_refuted, c74_set_time_list_refuted, c74_init_time_refuted, c74_units_get, c74_units_set, c74_units_refuted, c74_save_format
* C75 (TFileProps.v): c75_since, c75_axis, c75_instants_off_by, c75_instants_partial, c75_instants_refuted, c75_given_offset, c75_naive, c75_names, c75_iso_name_partial, c75_errors
* C76 (TFileProps.v): c76_locate, c76_by_variable, c76_constant_shared_refuted, c76_constant_single, c76_constant_first
* C77 (LoadProps.v): c77_location, c77_fields, c77_time, c77_time_instants_partial, c77_time_data, c77_depth_partial, c77_depth_refuted, c77_accept, c77_errors, c77_default_names
* C78 (LoadProps.v): c78_loaded, c78_entries, c78_complete, c78_all_or_nothing, c78_infer_total, c78_unrelated_variable_refuted, c78_data_lost_refuted, c78_by_attribute
* C79 (DSaveProps.v): c79_round_trip_partial, c79_accept, c79_errors, c79_format, c79_dimensions, c79_keys_lost, c79_resave_refuted, c79_resave_fails_refuted, c79_boundary_coordinates_refuted, c79_names_refuted
* C80 (NearProps.v): c80_nearest_partial, c80_not_lazy_refuted, c80_build, c80_stale_refuted, c80_slice_partial, c80_slice_masked, c80_slice_errors, c80_slice_negative_refuted, c80_value_partial, c80_value_refuted, c80_errors, c80_nodes_partial, c80_nodes_refuted
* C81 (SSaveProps.v): c81_round_trip_partial, c81_variables_partial, c81_values_lost_refuted, c81_edges_lost_refuted, c81_attributes_lost_refuted, c81_no_faces_refuted, c81_errors, c81_save_errors
* C82 (EqProps.v): c82_unstructured, c82_staggered, c82_equivalence, c82_copy_refuted, c82_blind_refuted, c82_raises_refuted, c82_alike, c82_paddings
* C83 (BearProps.v): c83_bearing, c83_unique, c83_cardinal, c83_turns, c83_angle, c83_rows_partial, c83_grid, c83_single_refuted, c83_masks_refuted
* C84 (RegridProps.v): c84_values, c84_levels, c84_still, c84_still_depth_refuted, c84_only, c84_masks_lost_refuted, c84_no_overlap_refuted, c84_center_as_node_refuted, c84_centers_refuted, c84_refused, c84_transform_refuted, c84_same_refuted
* C85 (VLoadProps.v): c85_components, c85_order, c85_time, c85_units, c85_alone_partial, c85_found, c85_missing, c85_times_refuted, c85_depth_refuted, c85_no_axis_refuted, c85_errors
* C86 (ConstProps.v): c86_built, c86_inside, c86_unmasked, c86_outside_masked, c86_poles_refuted, c86_history, c86_unmask_cached_refuted, c86_columns_refuted
* C87 (SLoadProps.v): c87_roms, c87_roles, c87_fvcom_partial, c87_fvcom_levels_refuted, c87_levels_partial, c87_level_standard_name_refuted
* C88 (SLoadProps.v): c88_fields, c88_terms_partial, c88_terms_refuted, c88_time, c88_bathymetry, c88_no_zeta, c88_errors, c88_without_zeta, c88_flat_zeta, c88_bathymetry_given_refuted, c88_zeta_given_refuted, c88_outer_centers, c88_inner_centers_refuted, c88_zeta_place_refuted, c88_mesh_nodes
* C89 (NLoadProps.v): c89_faces_partial, c89_parts, c89_sound, c89_few_faces_refuted, c89_base_refuted, c89_neighbours_refuted, c89_packed_refuted, c89_attribute_case_refuted, c89_attributes, c89_errors
* C90 (PlotProps.v): c90_triangles_partial, c90_three_faces_refuted, c90_boundaries, c90_boundary_errors, c90_sgrid_lines, c90_wireframe, c90_narrow, c90_quads_refuted, c90_faces_partial, c90_faces_refuted
* C91 (PlotProps.v): c91_extent, c91_no_nodes, c91_query_partial, c91_outside, c91_straddling_refuted, c91_mixed_refuted, c91_full_circle_refuted, c91_fortran_refuted
* C92 (SNameProps.v): c92_kept_partial, c92_lists, c92_reachable, c92_replaced_refuted, c92_read_only_refuted, c92_list_name_refuted, c92_arguments_refuted, c92_properties_refuted, c92_errors
* C93 (DsetProps.v): c93_parts, c93_file, c93_file_succeeds, c93_refused, c93_constructor_partial, c93_time_refuted, c93_topology_refuted, c93_attributes_refuted, c93_items, c93_separate, c93_shared_refuted
* C94 (AnyDepthProps.v, LAboveProps.v, LAnyProps.v, LayerProps.v, UpProps.v, WholeProps.v): c94_any_depth_nodes_partial, c94_any_depth_faces_partial, c94_any_depth_rectangular_partial, c94_layers_unanswered, c94_layers_past_raises, c94_mesh_nodes_layers_any_depth_partial, c94_rectangular_layers_any_depth_partial, c94_mesh_nodes_layers_partial, c94_rectangular_layers_partial, c94_upwards_unanswered, c94_upwards_raises, c94_mesh_nodes_partial, c94_mesh_faces_partial, c94_rectangular_partial, c94_every_answer_partial, c94_deepest_refuted, c94_refusals
* C95 (DObjProps.v): c95_base_settings, c95_settings_partial, c95_refused, c95_level_ends, c95_other_conditions, c95_roms_ends, c95_fvcom_ends, c95_abstract, c95_bottom_condition_refuted, c95_keywords_refuted, c95_set_surface_refuted, c95_replaced_refuted, c95_names, c95_names_refuted
* C96 (CNameProps.v): c96_named, c96_differ_partial, c96_numbers, c96_levels_refuted, c96_collision_refuted
* C97 (TerrProps.v): c97_levels_partial, c97_linear_in_depth_partial, c97_layers_partial, c97_product_refuted, c97_plain_refuted
* C98 (SAnyDepthProps.v, SUpProps.v, SWholeProps.v): c98_any_depth_partial, c98_any_depth_one_partial, c98_upwards_unanswered, c98_upwards_raises, c98_same_program, c98_times_partial, c98_levels_partial, c98_node_fields_partial, c98_layers_partial, c98_centers_on_levels, c98_one_point_partial, c98_centers_on_levels_refuted
* C99 (RTerrProps.v): c99_levels_partial, c99_one_point_partial, c99_layers_partial, c99_columns, c99_digitize, c99_seats_exist, c99_fields_partial, c99_critical_depth_refuted
* C100 (InspProps.v): c100_opens, c100_session, c100_middle, c100_log_apart, c100_log_name, c100_log_shared_refuted, c100_marks_stay_refuted, c100_spill_refuted, c100_middle_refuted, c100_numbers, c100_fortran_refuted
* C101 (CurrProps.v): c101_session, c101_continuous, c101_coast, c101_flux, c101_bounds, c101_uniform, c101_points, c101_options
* C102 (AnyDepthProps.v, FMeshProps.v, LAboveProps.v, LAnyProps.v, LFileProps.v, UpProps.v, UpWaterProps.v): c102_any_depth_nodes_partial, c102_any_depth_faces_partial, c102_any_depth_session_partial, c102_grid, c102_variable, c102_nodes_partial, c102_faces_partial, c102_session_partial, c102_depth_without_time_refuted, c102_no_levels_refuted, c102_surface_only, c102_surface_only_refuted, c102_axis_as_data_refuted, c102_layers_unanswered, c102_layers_past_raises, c102_layers_any_depth_nodes_partial, c102_layers_nodes_partial, c102_layers_above_refuted, c102_layers_surface_refuted, c102_upwards_unanswered, c102_upwards_raises, c102_upwards_refuted, c102_upwards_nodes_partial, c102_upwards_faces_partial
* C103 (UObjProps.v): c103_own_tables_partial, c103_shared_refuted, c103_caller_array_refuted, c103_edited_refuted, c103_failed, c103_failed_new_refuted, c103_nodes, c103_half_refuted, c103_fits_partial, c103_fits_refuted, c103_deleters, c103_del_nodes_refuted, c103_del_faces_refuted, c103_lines_partial, c103_lines_of_faces_partial, c103_lines_refuted, c103_without_faces
* C104 (AnyDepthProps.v, FRectProps.v, LAboveProps.v, LAnyProps.v, LFileProps.v, UpProps.v, UpWaterProps.v): c104_any_depth_partial, c104_any_depth_session_partial, c104_grid, c104_opens, c104_unopenable, c104_variable, c104_answers_partial, c104_session_partial, c104_other_dimensions, c104_scalar_refuted, c104_axis_refuted, c104_by_longitude_refuted, c104_capitals_refuted, c104_layers_unanswered, c104_layers_past_raises, c104_layers_any_depth_partial, c104_layers_partial, c104_upwards_unanswered, c104_upwards_raises, c104_upwards_partial
* C105 (FStagProps.v, SAnyDepthProps.v, SUpProps.v, SUpWaterProps.v): c105_grid, c105_opens, c105_left_out, c105_variable, c105_times_partial, c105_levels_partial, c105_one_point_partial, c105_fixed, c105_fields_partial, c105_inner_edges, c105_unpadded_edges_refuted, c105_no_edge_coordinates_refuted, c105_same_size_centers_refuted, c105_any_depth_partial, c105_any_depth_one_partial, c105_upwards, c105_upwards_below_partial, c105_upwards_below_one_partial
* C106 (FRomsProps.v): c106_other_depths, c106_opens, c106_left_out, c106_variable, c106_layers_partial, c106_levels_partial, c106_one_point_partial, c106_times_partial, c106_fixed, c106_vtransform_refuted, c106_other_times_refuted, c106_inner_centers_refuted
* C107 (FFvcomProps.v): c107_opens, c107_grid, c107_left_out, c107_variable, c107_labelled, c107_levels_partial, c107_linear_in_depth_partial, c107_layers_partial, c107_nodes_partial, c107_faces_partial, c107_labelled_refuted, c107_above_refuted, c107_other_times_refuted, c107_sigma_as_data_refuted
* C108 (FSgridProps.v, SAnyDepthProps.v, SUpProps.v, SUpWaterProps.v): c108_grid, c108_opens, c108_left_out, c108_variable, c108_times_partial, c108_levels_partial, c108_one_point_partial, c108_fixed, c108_fields_partial, c108_columns_first, c108_read_only_refuted, c108_no_vertical_refuted, c108_padding_order_refuted, c108_any_depth_partial, c108_any_depth_one_partial, c108_upwards, c108_upwards_below_partial, c108_upwards_below_one_partial
* C109 (AnyDepthProps.v, FFMaskProps.v, FMaskProps.v, LAnyProps.v, LFileProps.v, LMaskProps.v, LayerProps.v, UpWaterProps.v, WMaskProps.v): c109_any_depth_nodes_partial, c109_any_depth_faces_partial, c109_file_any_depth_nodes_partial, c109_file_any_depth_faces_partial, c109_sigma_levels_partial, c109_sigma_layers_partial, c109_fvcom_levels_partial, c109_fvcom_layers_partial, c109_above_refuted, c109_file_nodes_partial, c109_file_faces_partial, c109_fvcom_nodes_partial, c109_fvcom_faces_partial, c109_file_rect_as_zero_partial, c109_file_rect_clear_partial, c109_mesh_faces_layers_any_depth_partial, c109_file_layers_any_depth_faces_partial, c109_file_layers_faces_partial, c109_rectangular_layers_as_zero_partial, c109_rectangular_layers_clear_partial, c109_mesh_faces_layers_partial, c109_mesh_nodes_layers_partial, c109_file_upwards_nodes_partial, c109_file_upwards_faces_partial, c109_mesh_nodes_partial, c109_mesh_as_zero_partial, c109_mesh_faces_partial, c109_rectangular_as_zero_partial, c109_rectangular_clear_partial, c109_partly_refuted, c109_instant_refuted, c109_surface_refuted, c109_outside_refuted, c109_rectangular_refuted
* C110 (FSaveProps.v): c110_answers_partial, c110_history_partial, c110_nodes_partial, c110_faces_partial, c110_stable_partial, c110_three_faces_refuted, c110_key_refuted
* C111 (DedentProps.v, InfoProps.v): c111_dedented, c111_time, c111_variable, c111_variable_reads, c111_no_data, c111_repr, c111_none_refuted, c111_newline_refuted, c111_mesh, c111_mesh_reads, c111_no_faces_refuted, c111_staggered, c111_dataset_answers, c111_regular_refuted, c111_vector_refuted, c111_dataset, c111_strings, c111_equal_lists, c111_equal_arrays_refuted, c111_arraylike
* C112 (ViewProps.v): c112_drawn, c112_labels, c112_fails, c112_padding_refuted
* C113 (FDiskProps.v): c113_refused, c113_refused_or_goes, c113_step, c113_untouched, c113_last, c113_answers_partial, c113_failed_refuted, c113_other_grids_refuted, c113_path_refuted, c113_closed_refuted
* C114 (FVecProps.v): c114_mesh_partial, c114_rect_partial, c114_stag_partial, c114_sgrid_partial, c114_roms_partial, c114_fvcom_partial, c114_session_partial, c114_fields_partial, c114_times_refuted, c114_place_refuted
* C115 (FRMaskProps.v, FSMaskProps.v, RMaskProps.v, SAnyDepthProps.v, SMaskProps.v, SUpWaterProps.v): c115_roms_layers_partial, c115_roms_levels_partial, c115_roms_one_point_partial, c115_stag_times, c115_stag_levels_partial, c115_stag_one_point_partial, c115_sgrid_times, c115_sgrid_levels_partial, c115_sgrid_one_point_partial, c115_terrain_partial, c115_terrain_one_point_partial, c115_terrain_layers_partial, c115_any_depth_partial, c115_any_depth_one_partial, c115_stag_any_depth_partial, c115_stag_any_depth_one_partial, c115_sgrid_any_depth_partial, c115_sgrid_any_depth_one_partial, c115_times, c115_layers, c115_levels_partial, c115_one_point_partial, c115_centers_missing, c115_nodes_missing, c115_instant_refuted, c115_corner_refuted, c115_stag_upwards_below_partial, c115_stag_upwards_below_one_partial, c115_sgrid_upwards_below_partial, c115_sgrid_upwards_below_one_partial

## Axioms (what Print Assumptions lists)

* Closed under the global context (no axioms): the 770 theorems of MANIFEST.json not named below.
* `ClassicalDedekindReals.sig_forall_dec`: c45_no_masked_value, c45_mirror_many_points, c45_mask_exact, c45_mask_one_point_partial, c45_outside_and_errors.
* `ClassicalDedekindReals.sig_forall_dec`, `FunctionalExtensionality.functional_extensionality_dep`: c41_weights, c41_bilinear_and_bounded, c42_inverse_matrix, c42_unique_place, c45_zero, c45_mirror_partial, c45_mirror_refuted, c45_mask_refuted, c86_built, c99_columns, c99_digitize, c99_seats_exist, c101_continuous, c101_coast, c101_flux, c101_bounds, c101_uniform, c105_unpadded_edges_refuted, c105_no_edge_coordinates_refuted, c105_same_size_centers_refuted, c106_other_times_refuted, c106_inner_centers_refuted.
* `ClassicalDedekindReals.sig_forall_dec`, `ClassicalDedekindReals.sig_not_dec`, `FunctionalExtensionality.functional_extensionality_dep`: c41_node_values, c41_exact_at_nodes, c41_affine_exact, c41_edge1_values, c41_edge2_values, c41_center_values, c41_default_slices, c41_call_forms_refuted, c42_maps_back, c42_finds_the_place, c42_defined, c42_parallelogram, c43_columns_east_partial, c43_rows_east, c43_either_axis_refuted, c43_rows_east_interpolation, c44_fractions_exchanged_partial, c44_exact_value, c44_node_index_refuted, c61_length, c61_vector_sum, c61_compose, c61_back, c61_direction, c61_masked, c86_inside, c86_unmasked, c86_outside_masked, c86_poles_refuted, c86_history, c86_unmask_cached_refuted, c86_columns_refuted, c98_any_depth_partial, c98_any_depth_one_partial, c98_upwards_unanswered, c98_upwards_raises, c98_times_partial, c98_levels_partial, c98_node_fields_partial, c98_layers_partial, c98_centers_on_levels, c98_one_point_partial, c98_centers_on_levels_refuted, c99_levels_partial, c99_one_point_partial, c99_layers_partial, c99_fields_partial, c99_critical_depth_refuted, c101_session, c101_points, c105_times_partial, c105_levels_partial, c105_one_point_partial, c105_fixed, c105_fields_partial, c105_any_depth_partial, c105_any_depth_one_partial, c105_upwards, c105_upwards_below_partial, c105_upwards_below_one_partial, c106_other_depths, c106_layers_partial, c106_levels_partial, c106_one_point_partial, c106_times_partial, c106_fixed, c106_vtransform_refuted, c108_times_partial, c108_levels_partial, c108_one_point_partial, c108_fixed, c108_fields_partial, c108_columns_first, c108_padding_order_refuted, c108_any_depth_partial, c108_any_depth_one_partial, c108_upwards, c108_upwards_below_partial, c108_upwards_below_one_partial, c114_stag_partial, c114_sgrid_partial, c114_roms_partial, c115_roms_layers_partial, c115_roms_levels_partial, c115_roms_one_point_partial, c115_stag_times, c115_stag_levels_partial, c115_stag_one_point_partial, c115_sgrid_times, c115_sgrid_levels_partial, c115_sgrid_one_point_partial, c115_terrain_partial, c115_terrain_one_point_partial, c115_terrain_layers_partial, c115_any_depth_partial, c115_any_depth_one_partial, c115_stag_any_depth_partial, c115_stag_any_depth_one_partial, c115_sgrid_any_depth_partial, c115_sgrid_any_depth_one_partial, c115_times, c115_layers, c115_levels_partial, c115_one_point_partial, c115_centers_missing, c115_nodes_missing, c115_instant_refuted, c115_corner_refuted, c115_stag_upwards_below_partial, c115_stag_upwards_below_one_partial, c115_sgrid_upwards_below_partial, c115_sgrid_upwards_below_one_partial.
* `ClassicalDedekindReals.sig_forall_dec`, `ClassicalDedekindReals.sig_not_dec`, `Classical_Prop.classic`, `FunctionalExtensionality.functional_extensionality_dep`: c83_bearing, c83_unique, c83_cardinal, c83_turns, c83_angle, c83_rows_partial, c83_grid, c83_masks_refuted.

All of these are axioms of the Coq standard library (classical reals and function extensionality).
