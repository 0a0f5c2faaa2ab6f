[
 [
  "time.py",
  "Time constructor and setters (tz_offset, displacement, shift), checks, index_of, interp_alpha, valid_time, __eq__, offset_as_iso_string, parse_time_offset, locate_time_var_from_var, from_netCDF, constant_time (dateutil and cftime as arbitrary functions); info (C111)",
  "datetime objects with a time zone of their own, calendars"
 ],
 [
  "variable.py",
  "constructor and from_netCDF of Variable, constant, at with cache, at composed with the interpolation of meshes, rectangular and staggered grids, _time_interp, _depth_interp, _xy_interp dispatch, dimension_ordering, data/time/location setters, _gen_varname(s); VectorVariable at, cache, constructor from components, from_netCDF, time, units, default names and class counters, currents on staggered grids from points to values; data with missing values (C109, on staggered grids C115); info and __repr__ (C111); VectorVariable.from_netCDF and at, from files of all kinds to the answers (C114)",
  "__repr__ of VectorVariable, docstring helpers"
 ],
 [
  "depth.py",
  "constructors and properties of all classes, DepthBase, L_Depth, S_Depth, ROMS/FVCOM_Depth profiles and indices, boundary conditions, class choice, level loading, S_Depth.from_netCDF, variable-name lists, _gen_varname, default names and class counters, FVCOM_Depth composed with Variable.at on meshes, ROMS_Depth with Variable.at on staggered grids; ROMS_Depth from the file to the answers, with the averaged bathymetry and free surface; FVCOM_Depth from the file to the answers",
  "file opening, positional constructor arguments"
 ],
 [
  "grids.py",
  "_get_grid_type, argument search of Grid_U/S/R constructors, Grid_R.locate_faces, lonlat_to_yx, infer_location, centers, interpolation, default names and the class counter; Grid_S.from_netCDF with a topology variable, up to the answers; data with missing values (C109)",
  "plotting helpers"
 ],
 [
  "utilities.py",
  "point normalisation and alignment, mask conversion, variable search, dataset resolution, ray casting, regridding; isarraylike, asarraylike (C111); get_writable_dataset (C113)",
  "spatial_data_metadata, download helpers"
 ],
 [
  "pyugrid/ugrid.py",
  "faces/edges/boundaries setters, topology builders, coordinates, location inference, locate_faces with memo, locate_nodes, interpolation, save with data variables, __eq__, objects over shared arrays: constructor, setters, deleters, get_lines; data with missing values (C109); answers of a saved mesh (C110); info (C111)",
  "the k-d tree and cell tree libraries, print"
 ],
 [
  "pyugrid/read_netcdf.py",
  "mesh discovery and loading, load_from_varnames (grid_io/utils.py)",
  "the post-processing callback of load_from_varnames"
 ],
 [
  "pyugrid/uvar.py, pysgrid/variables.py",
  "item caches, UMVar, variable description",
  "attributes pass-through"
 ],
 [
  "pyugrid/util.py",
  "point_in_tri, array/mask helpers used by the above; isarraylike, asarraylike (C111)",
  "nothing"
 ],
 [
  "pysgrid/sgrid.py",
  "mask handling, cell tree compaction, locate_faces with memo, x_to_l, geo_to_logical, interpolation, compute_interpolant, infer_location, load and save, variables as attributes, nearest points, efficient slices, __eq__, interpolation under Variable.at; load_grid from the file to the answers of the variables; info (C111)",
  "the rest of the helpers"
 ],
 [
  "pysgrid/read_netcdf.py, utils.py, lookup.py, processing_2d.py",
  "attribute parsing, coordinate and mask discovery, slicing, rotation and averaging, bearings and angles; check_element_equal (C111)",
  "nothing"
 ],
 [
  "io/verdat.py",
  "order_boundary_segments, save and load",
  "line numbers in error texts"
 ],
 [
  "gridded.py, plotting/, pyugrid/ugrid_wx.py",
  "gridded.py: Dataset construction and items, save, _variables_from_netCDF, get_variables_by_attribute; plotting: plot_ugrid, plot_sgrid, triangles, wireframe, extent and query of GridGeoGenerator, the inspector's window, opening a file with a mesh and asking its variables (composition), files with regular grids from opening to answers, files with staggered grids from opening to answers, files of ROMS from opening to answers, files of FVCOM from opening to answers, files with an SGRID topology variable from opening to answers; saving, opening again and asking (C110); info of Dataset (C111); ugrid_wx: what Draw_UGRID draws (C112); Dataset.save and the disk (C113)",
  "rendering, menus and dialogs of ugrid_wx"
 ]
]