{"id": "C01", "title": "Generated file names are consecutive and never collide", "statement": "gen_filenames(base, begin=b, end=e, ext=x) yields exactly the names base + number + x for the numbers b, b+1, ..., e in this order (nothing if b > e; without end, forever), where the number is decimal, zero padded to at least five digits. Two different non-negative numbers never give the same file name, also beyond 99999 where the padding no longer applies.", "quantifier": "all bases, extensions, begin and end numbers (end possibly infinite)", "why_tests_cant": "Tests check a few small numbers; collision freedom concerns all pairs of numbers, including ones longer than the padding.", "anchors": ["strata/utils.py:gen_filenames"]}
{"id": "C02", "title": "Input maps are found as the unbroken run from the first number", "statement": "find_datamap_files(base, begin, end, ext) yields exactly the names numbered begin, begin+1, ... that exist, up to and excluding the first number that is missing or larger than end; it never skips a gap and it stops on every finite directory even with the default end = infinity. It warns exactly when the range is not empty and the very first file is missing.", "quantifier": "all sets of existing files, all begin/end (end possibly infinite)", "why_tests_cant": "The set of possible directory contents is unbounded; tests use a handful of fixed directories.", "anchors": ["strata/utils.py:find_datamap_files", "strata/utils.py:find_datamap_files.yield_singles"]}
{"id": "C03", "title": "Grouped input maps partition the run without overlap or loss", "statement": "With group = g >= 1 find_datamap_files yields lists of exactly g consecutive names; concatenated they are the first g * floor(n/g) names of the n names that the single-file search finds; only an incomplete final group is dropped.", "quantifier": "all directory contents, all begin/end, all group sizes g >= 1", "why_tests_cant": "Off-by-one errors at the end of the range depend on n mod g and on gap positions; only samples are tested.", "anchors": ["strata/utils.py:find_datamap_files.yield_groups"]}
{"id": "C04", "title": "Rolling groups are all windows of consecutive maps", "statement": "With rolling=True and group = g >= 1, the k-th yielded list is the window of g consecutive names starting at the k-th found name, and there are max(0, n - g + 1) windows.", "quantifier": "all directory contents, all begin/end, all group sizes g >= 1", "why_tests_cant": "Needs every window for every n and g.", "anchors": ["strata/utils.py:find_datamap_files.yield_groups"]}
{"id": "C05", "title": "Single-file processing keeps the frame number", "statement": "find_singles_to_singles(base, output, ...) pairs each found input file with the output name with the same number, and output extension outext if given and otherwise the input extension; no two inputs share an output.", "quantifier": "all directory contents, bases, begin/end, ext/outext", "why_tests_cant": "The pairing must hold for every frame of every run.", "anchors": ["strata/utils.py:find_singles_to_singles"]}
{"id": "C06", "title": "Group processing numbers outputs as K = ceil(N/M)", "statement": "find_groups_to_singles pairs the bundle starting at input number N with output number ceil(N/M), M the bundle size (documented formula), in rolling mode with output number N; distinct bundles have distinct outputs.", "quantifier": "all directory contents, begin numbers (aligned or not), group sizes M >= 1, rolling or not", "why_tests_cant": "The formula must hold for every bundle, including when begin is not aligned with the bundle size.", "anchors": ["strata/utils.py:find_groups_to_singles", "strata/utils.py:pop_fileopts"]}
{"id": "C07", "title": "Writing never destroys an existing file", "statement": "For any sequence of output calls decorated with prepare_path to paths in a directory, every file content that was ever completely written (or existed from the start) is still present afterwards under its name or a backup name '#name.i#'; the newest content of each path is at the path itself; files not related to the written path are not touched; the backup index is the smallest unused one.", "quantifier": "all file system contents, all sequences of writes to any names (including names that look like backups)", "why_tests_cant": "Data loss may need a special history of names and backups; tests look at one or two backups.", "anchors": ["strata/utils.py:prepare_path", "strata/dataformats/write.py:write", "strata/spreading/collect.py:collect", "strata/interface/collect.py:write_interface_data"]}
{"id": "C08", "title": "Backups survive a crash, and concurrent writers", "statement": "If the process is killed between any two file system operations of such a write, no earlier content has been lost. Two processes writing to the same path at the same time do not lose content either.", "quantifier": "all file system contents, all crash points; all interleavings of two writers", "why_tests_cant": "Crash points and interleavings are not reachable by unit tests.", "anchors": ["strata/utils.py:prepare_path"]}
{"id": "C09", "title": "Averaging data maps conserves mass and momentum", "statement": "average_data(*maps) gives in every bin the arithmetic mean of M and of N, and velocities such that avg(M)*avg(U) equals the mean of M*U over the maps (same for V; and for N*T); in particular total mass and momentum of the averaged map are the mean of the totals. Bins with zero total weight get value 0, never NaN.", "quantifier": "all numbers of maps >= 1, all map sizes, all non-negative weights", "why_tests_cant": "Holds for all real data; tests average two or three small maps.", "anchors": ["strata/dataformats/simple/average.py:average_data"]}
{"id": "C10", "title": "The map average does not depend on file order and is a true average", "statement": "Permuting the input maps does not change the result; averaging copies of one map returns it (in all bins with positive weight); every averaged value lies between the smallest and largest value among the maps; scaling all weights does not change velocities.", "quantifier": "all permutations, numbers of maps, data", "why_tests_cant": "Permutation and range properties are universally quantified over the data.", "anchors": ["strata/dataformats/simple/average.py:average_data"]}
{"id": "C11", "title": "Maps on different grids are never averaged silently", "statement": "average_data returns data only if all maps have the same number of bins and pairwise with the first map coordinates within the numpy isclose tolerance; otherwise a ValueError is raised; the result has the coordinates of the first map; no maps give an empty result.", "quantifier": "all lists of maps", "why_tests_cant": "A silent mismatch would be a missed case; tests check a few bad inputs.", "anchors": ["strata/dataformats/simple/average.py:average_data"]}
{"id": "C12", "title": "Combining bins conserves mass, number and momentum", "statement": "combine_bins(data, info, nx, ny) sums M and N over each block of nx*ny bins and averages U, V (by M) and T (by N) such that M*U, M*V and N*T are sums over the block as well; when nx, ny divide the grid shape the totals of the map are unchanged; blocks without mass get velocity 0.", "quantifier": "all grid shapes, block sizes nx, ny >= 1, all non-negative data", "why_tests_cant": "All shapes and divisors, including those where the remainder is cut.", "anchors": ["strata/dataformats/simple/average.py:combine_bins"]}
{"id": "C13", "title": "Combined bins describe the right grid", "statement": "combine_bins returns shape floor(shape/n), spacing n*spacing, origin moved to the centre of the first block, and X, Y of each combined bin equal to the mean of X, Y of the bins in its block; combining (1, 1) returns the same map; combining by (a, b) and then by (c, d) is the same as combining by (a*c, b*d) when the shape is divisible.", "quantifier": "all grid shapes and block sizes", "why_tests_cant": "Index arithmetic for all shapes.", "anchors": ["strata/dataformats/simple/average.py:combine_bins"]}
{"id": "C14", "title": "Averaging in equal groups composes", "statement": "Averaging k groups of g maps each and then averaging the k results gives the same map as averaging the k*g maps at once (when the total weight in each bin is positive or all values there are 0).", "quantifier": "all k, g >= 1 and all data", "why_tests_cant": "Compositional law over all groupings.", "anchors": ["strata/dataformats/simple/average.py:average_data", "strata/average.py:average"]}
{"id": "C15", "title": "Limiting a flow map keeps exactly the bins inside the limits", "statement": "FlowData.lims(label, vmin, vmax) returns a new object with exactly the rows with vmin <= value <= vmax (None: no limit) in the original order, keeps the spacing, sets num_bins to the number of rows and forgets shape and origin, leaves the input unchanged, and raises KeyError for an unknown label. Repeated limits commute and compose as intersection, and are idempotent.", "quantifier": "all data tables, labels and limits", "why_tests_cant": "Exactness at the boundaries for all data.", "anchors": ["droplets/flow.py:FlowData.lims", "droplets/data_utils.py:get_lim_indices"]}
{"id": "C16", "title": "Cutting keeps the box and describes it", "statement": "FlowData.cut(xlim, ylim) returns exactly the rows with both coordinates within the (inclusive) limits in the original order with shape equal to the numbers of distinct x and y, the spacing kept and the origin at the limits; cutting without limits a map which fits its grid information returns all of the data; the input is not modified.", "quantifier": "all tables, infos and limits", "why_tests_cant": "Exactness for all data and limits.", "anchors": ["droplets/flow.py:FlowData.cut"]}
{"id": "C17", "title": "Sorting bins only reorders them, in y-major order", "statement": "FlowData.sort gives a permutation of the bins ordered by Y first and X second, and two maps with the same bins in any order sort to the same map.", "quantifier": "all data tables", "why_tests_cant": "Ordering for all inputs.", "anchors": ["droplets/flow.py:FlowData.sort"]}
{"id": "C18", "title": "Derived flow objects do not alias the original", "statement": "copy, translate, lims and cut return new objects; translate(label, d) shifts exactly the column label by d and nothing else, translations compose additively and translate back; unknown labels raise KeyError.", "quantifier": "all tables, labels, distances", "why_tests_cant": "Universally quantified frame condition.", "anchors": ["droplets/flow.py:FlowData.translate", "droplets/flow.py:FlowData.copy"]}
{"id": "C19", "title": "Grid information is validated", "statement": "After set_info / property assignment the shape, spacing and origin are each either unset (None, None) or the pair of the first two numbers of the assigned sequence; a value which is no sequence of at least two numbers raises ValueError and leaves the property unchanged, unknown keys raise KeyError; size() is the pair n*d and requires both.", "quantifier": "all dictionaries of information and all sequences of assignments", "why_tests_cant": "Invariant over all histories of assignments.", "anchors": ["droplets/flow.py:FlowData.set_info", "droplets/flow.py:FlowData.shape", "droplets/flow.py:FlowData.size"]}
{"id": "C20", "title": "Averaging flow fields of different extent covers all of them", "statement": "average_flow_data makes a grid with the common spacing which contains every input bin; each input row lands in the combined bin at its own position (for inputs aligned with the grid); the combined grid has the smallest origin and reaches the largest edge.", "quantifier": "all non-empty lists of regular maps with common spacing and aligned origins", "why_tests_cant": "Offsets and shapes for all lists of maps.", "anchors": ["droplets/average.py:average_flow_data", "droplets/average.py:get_combined_grid", "droplets/average.py:transfer_data"]}
{"id": "C21", "title": "Averaging flow fields conserves the weighted quantities", "statement": "The combined map has in each bin the arithmetic mean over all maps (0 outside of a map) of unweighted fields and weighted mean sum(l*w)/sum(w) for weighted fields (0 if there is no weight); thus total mass (and momentum) is the mean of the totals of the inputs; the result does not depend on the order of the inputs.", "quantifier": "all lists of aligned maps, all weights", "why_tests_cant": "Conservation over all data.", "anchors": ["droplets/average.py:average_flow_data", "droplets/average.py:average_data"]}
{"id": "C22", "title": "Inconsistent flow fields are rejected", "statement": "average_flow_data raises for an empty list, for differing spacing, or missing grid information, and treats empty sets as documented (ignored with exclude_empty_sets=True, otherwise counted as empty bins).", "quantifier": "all lists of flow data", "why_tests_cant": "All error combinations.", "anchors": ["droplets/average.py:average_flow_data"]}
{"id": "C23", "title": "Downsampling conserves summed fields", "statement": "downsample_flow_data(flow, factors) sums unweighted fields over blocks, gives weighted averages for weighted fields (so that the weighted sum is conserved), coordinates equal to the block means, and its info (shape, spacing, origin) describes the new grid.", "quantifier": "all grid shapes and factors >= 1, all data", "why_tests_cant": "Block index arithmetic over all shapes.", "anchors": ["droplets/resample.py:downsample_flow_data"]}
{"id": "C24", "title": "Supersampling interpolates within the range of the data", "statement": "supersample_flow_data(flow, N) returns a grid with N times as many bins per direction and spacing/N; every value lies within the range of the input values, constant fields stay constant, N = 1 and None copy; the number of values for weighted fields is the weighted mean of the window. The refined bins cover the same area as the original bins.", "quantifier": "all grid shapes, N >= 1, all data", "why_tests_cant": "Window and border handling for all shapes.", "anchors": ["droplets/resample.py:supersample_flow_data"]}
{"id": "C25", "title": "The interface consists of the outermost droplet cells per layer", "statement": "get_interface (search from the walls) yields for each layer y within ylims in increasing order one (left, right) pair of cells of this layer if the layer contains a droplet cell: a cell with value >= cutoff and at least cutoff_bins other such cells within the radius; no droplet cell of this layer lies left of the left or right of the right cell; layers without droplet cells are skipped.", "quantifier": "all data maps, cutoffs, radii, bin numbers and limits", "why_tests_cant": "Geometry over all maps.", "anchors": ["droplets/interface.py:get_interface", "droplets/interface.py:_get_indices_in_radius", "droplets/interface.py:_cell_is_droplet"]}
{"id": "C26", "title": "The largest-block search finds the longest periodic run", "statement": "With the largest-connected-block search, the interface in a layer is the pair of end cells of a longest run of consecutive droplet cells of the layer, where runs may wrap around the periodic boundary; if all cells are droplet cells it is the whole layer.", "quantifier": "all layers of any length with any pattern of cells", "why_tests_cant": "2^n patterns for each n.", "anchors": ["droplets/interface.py:get_interface"]}
{"id": "C27", "title": "Default search parameters are what is documented", "statement": "If not given, cutoff is midway between smallest and largest value and radius is derived from the smallest bin separation; a homogeneous system yields nothing (with a warning), and for an empty map without an explicit cutoff the call raises ValueError.", "quantifier": "all data maps", "why_tests_cant": "All inputs.", "anchors": ["droplets/interface.py:get_interface"]}
{"id": "C28", "title": "Neighbour counts respect periodic images", "statement": "With periodic boundaries the number of neighbours of a cell equals the number of cells and periodic images of cells other than the cell itself within the search radius; removing cells below the cutoff in advance does not change which cells are droplet cells.", "quantifier": "all maps in a periodic box, radii up to the box size", "why_tests_cant": "All positions relative to the border.", "anchors": ["droplets/interface.py:_get_indices_in_radius", "droplets/interface.py:get_interface"]}
{"id": "C29", "title": "Contact line cells are a box at the interface edge", "statement": "get_contact_line_cells returns for each edge, in their order in the map, exactly the cells between the lowest interface layer and the highest one within the extract height area, which lie horizontally in the range spanned by the edge positions of these layers and the point the given width inwards from the edge in the reference layer (the highest of them at most extract_height above the lowest); none without an interface. adjust_cell_coordinates moves the cells of an edge rigidly such that the bottom is at 0 and the outermost column for that direction is at x = 0, and returns the shift.", "quantifier": "all maps, search methods, sizes, heights", "why_tests_cant": "All data.", "anchors": ["droplets/contact_line.py:get_contact_line_cells", "droplets/contact_line.py:adjust_cell_coordinates"]}
{"id": "C30", "title": "The spreading radius is right across periodic boundaries", "statement": "When both edges move less than half a box between frames and the droplet is narrower than the box, the radius reported by collect for a wrapped trajectory equals half of the true unwrapped distance of the edges in every frame, however many times the edges cross the boundary.", "quantifier": "all trajectories of any length, all box sizes", "why_tests_cant": "Arbitrary histories of crossings.", "anchors": ["strata/spreading/collect.py:add_pbc_multipliers_to_edges", "strata/spreading/collect.py:check_and_update_periodic_info", "strata/spreading/collect.py:collect"]}
{"id": "C31", "title": "Edge positions are tracked continuously across the boundary", "statement": "The reported left and right edge positions differ from the true unwrapped positions by one constant over the whole trajectory (a whole number of boxes), provided that the two edges do not cross the boundary in the same step (the assumption documented in check_and_update_periodic_info).", "quantifier": "all trajectories with the conditions of the previous property", "why_tests_cant": "Arbitrary histories of crossings.", "anchors": ["strata/spreading/collect.py:add_pbc_multipliers_to_edges"]}
{"id": "C32", "title": "Spreading times are relative to impact", "statement": "The output of collect has one row for each frame from the first with a detected edge pair; the time of a row is (frame number - impact frame number)*dt; the impact header is written once to each output file.", "quantifier": "all sequences of frames with or without detected edges; all sequences of calls", "why_tests_cant": "Histories with gaps and repeated calls.", "anchors": ["strata/spreading/collect.py:collect", "strata/spreading/collect.py:write_spreading"]}
{"id": "C33", "title": "Interface arrays run up the left edge and down the right one", "statement": "The array collected for a map holds every layer of its interface twice: the left edges from the first to the last layer, then the right edges from the last to the first. Each x is the edge position moved by whole boxes and a shift common to the whole array, each y is measured from the first layer. A map with no interface or a single layer has no array (an exception).", "quantifier": "all maps, options and earlier frames", "why_tests_cant": "All shapes of interfaces.", "anchors": ["strata/interface/collect.py:create_interface_array", "strata/interface/collect.py:get_yindex_data"]}
{"id": "C34", "title": "Periodic information is carried between frames by layer", "statement": "Periodic multipliers are transferred between successive frames for the layers common to both, and layers not present take the nearest known value; a layer's edge positions are thereby continuous across frames.", "quantifier": "all sequences of frames with any layer ranges", "why_tests_cant": "All overlaps.", "anchors": ["strata/interface/collect.py:transfer_values", "strata/interface/collect.py:fill_pbc_info_for_empty_y_values", "strata/interface/collect.py:update_interface_with_pbc_info"]}
{"id": "C35", "title": "Recentring interfaces is a rigid motion", "statement": "Recentring ('zero' or 'com') shifts all x values of a frame by the same amount so that the bottom edges are symmetric about 0 (zero) or the centre of mass is at 0 (com); differences are preserved.", "quantifier": "all interfaces", "why_tests_cant": "All data.", "anchors": ["strata/interface/collect.py:collect_interfaces"]}
{"id": "C36", "title": "The sampled area is the area of the polygon", "statement": "get_area_of_interface equals the shoelace area of the polygon formed by the interface points, is non-negative for right >= left and increasing y, and is invariant under translation and under sliding a layer sideways.", "quantifier": "all interfaces of any number of layers", "why_tests_cant": "All data.", "anchors": ["strata/interface/sample.py:get_area_of_interface"]}
{"id": "C37", "title": "The sampled length is a length", "statement": "calc_length is non-negative, at least the distance between the end points, invariant under translation and reversal and scales linearly.", "quantifier": "all interfaces", "why_tests_cant": "All data; real arithmetic.", "anchors": ["strata/interface/sample.py:calc_length"]}
{"id": "C38", "title": "Averaging interfaces uses common layers only", "statement": "average_interfaces keeps exactly the heights which are in all of the input interfaces and the mean x for each of them.", "quantifier": "all lists of interfaces", "why_tests_cant": "All sets of heights.", "anchors": ["strata/interface/view.py:average_interfaces"]}
{"id": "C39", "title": "Synchronising spreading curves only shifts time", "statement": "sync at a radius shifts each curve in time by one constant, such that all curves reach their closest point to the radius at one common time; radii, row order and time differences are unchanged. Scaling divides the times and radii of each curve by its factors, and factors which do not fit the number of curves are refused with TypeError.", "quantifier": "all curves and radii", "why_tests_cant": "All data.", "anchors": ["strata/spreading/view.py:sync_time_at_radius", "strata/spreading/view.py:scale_spreading_data"]}
{"id": "C40", "title": "Fit limits select a range", "statement": "The fit uses exactly the points with positive time in the (inclusive) limits; if no time is in the limits, or they are not given, it uses all points with positive time. The fitted curve is given at all times in its limits.", "quantifier": "all data and limits", "why_tests_cant": "All data.", "anchors": ["strata/spreading/fit.py:get_inds_in_limits"]}
{"id": "C41", "title": "Slip length is exact for linear profiles", "statement": "For a linear velocity profile the sampled slip length is the distance below the floor at which the profile extrapolates to zero, independent of the number and position of samples and invariant under scaling of the velocity.", "quantifier": "all linear profiles with non-zero slope sampled at two or more distinct heights", "why_tests_cant": "All data.", "anchors": ["strata/sample_average.py:sample_slip_length"]}
{"id": "C42", "title": "Sampled values respect the mass cutoff", "statement": "sample_value returns the sum or mean (with standard deviation) of a field, the inertial energy or the viscous dissipation over exactly the bins within the limits whose cutoff field is at least the cutoff (by default half way between its extremes); the mean lies within the range of values. Each file is sampled by itself, with times i dt.", "quantifier": "all maps, cutoffs, limits", "why_tests_cant": "All data.", "anchors": ["strata/sample_average.py:sample_value"]}
{"id": "C43", "title": "Viscous dissipation is physical", "statement": "The sampled viscous dissipation is never negative, and on any regular grid with at least three bins in each direction it is exact, aligned with the bins, for every flow of degree at most two: zero for uniform flow and rigid rotation, viscosity*rate^2 for shear. It does not depend on the order of the bins.", "quantifier": "all grids and velocity fields", "why_tests_cant": "All fields.", "anchors": ["droplets/sample.py:sample_viscous_dissipation"]}
{"id": "C44", "title": "Centre of mass moves with the system", "statement": "sample_center_of_mass is the mass weighted mean position: lies within the range of coordinates, is shifted by translation of the data, and invariant under scaling of the mass and reordering of the bins.", "quantifier": "all data with positive mass", "why_tests_cant": "All data.", "anchors": ["droplets/sample.py:sample_center_of_mass"]}
{"id": "C45", "title": "Angular sampling covers the circle exactly once", "statement": "sample_per_angle_from assigns every bin to exactly one angle interval, over the entire circular range by default.", "quantifier": "all maps, origins, interval sizes", "why_tests_cant": "All angles.", "anchors": ["droplets/sample.py:sample_per_angle_from"]}
{"id": "C46", "title": "GMX flow files read back what was written", "statement": "Reading a written gmx_flow file gives, for every bin with mass, the same position and values (to the precision of the stored numbers), zeros for all other bins, and the same grid information.", "quantifier": "all grids and data", "why_tests_cant": "All data; byte level.", "anchors": ["strata/dataformats/gmx_flow_version_1/write.py:write_data", "strata/dataformats/gmx_flow_version_1/read.py:read_data"]}
{"id": "C47", "title": "Reading the gmx header does not depend on the file size", "statement": "The header of a gmx_flow file is found and the data following it is read from the byte after its terminator for every header length and data length.", "quantifier": "all header lengths and data lengths", "why_tests_cant": "Chunked reading depends on positions modulo the buffer size.", "anchors": ["strata/dataformats/gmx_flow_version_1/read.py:read_header"]}
{"id": "C48", "title": "Simple binary and plain files read back what was written", "statement": "Reading a file written in the simple (binary or plain) format returns the values of all fields, in the row order for which it was written, and the file type is detected from its content.", "quantifier": "all tables", "why_tests_cant": "All data; byte level.", "anchors": ["strata/dataformats/simple/read.py:read_data", "strata/dataformats/simple/write.py:write_data"]}
{"id": "C49", "title": "Grid information is recovered from coordinates", "statement": "calc_information applied to the coordinates of a regular grid returns its shape, spacing and origin.", "quantifier": "all regular grids", "why_tests_cant": "All shapes and spacings.", "anchors": ["strata/dataformats/simple/read.py:calc_information"]}
{"id": "C50", "title": "File formats are recognised", "statement": "guess_read_module selects the gmx reader exactly for files starting with the gmx magic and the simple reader otherwise; write dispatches on ftype and raises KeyError for an unknown one.", "quantifier": "all file contents", "why_tests_cant": "All contents.", "anchors": ["strata/dataformats/read.py:guess_read_module", "strata/dataformats/write.py:write"]}
{"id": "C51", "title": "Conversion keeps frames and positions", "statement": "convert writes for each input frame one output frame with the same number and the same bins at the same positions.", "quantifier": "all sets of input files", "why_tests_cant": "All data.", "anchors": ["strata/convert.py:convert"]}
{"id": "C52", "title": "Contact line frames are grouped in windows and fused at the edge", "statement": "get_grouped_data yields windows of the requested number of frames; fuse_edges places the left edge cells left of 0 and the right edge cells right of 0 half a bin away, preserving relative positions.", "quantifier": "all numbers of frames; all cells", "why_tests_cant": "All data.", "anchors": ["strata/contact_line_analysis.py:get_grouped_data", "strata/contact_line_analysis.py:fuse_edges"]}
{"id": "C53", "title": "Flow arrows are drawn for every bin with flow", "statement": "get_quiver_data returns exactly the bins with non-zero flow within the velocity and mass limits, with their positions and velocities.", "quantifier": "all maps and limits", "why_tests_cant": "All data.", "anchors": ["strata/view_flowmap.py:get_quiver_data"]}
{"id": "C54", "title": "Density gradients use the grid spacing of their own axis", "statement": "The density gradient added to a map is exact for a linear density on every grid with spacings dx, dy.", "quantifier": "all linear densities and grid spacings", "why_tests_cant": "All grids.", "anchors": ["strata/view_flowmap.py:add_density_gradient"]}
{"id": "C55", "title": "Averaging pipeline writes maps consistent with their grid", "statement": "strata.average writes for each group of input maps one map with the averaged (and combined, cut, recentred) data that reads back with the written grid.", "quantifier": "all options and input maps", "why_tests_cant": "All option combinations.", "anchors": ["strata/average.py:average"]}
{"id": "C56", "title": "Reading several files is reading each of them", "statement": "read_from_files yields the data of each file in the order given, with the limits applied as an intersection.", "quantifier": "all lists of files and limits", "why_tests_cant": "All lists.", "anchors": ["strata/dataformats/read.py:read_from_files", "droplets/data_utils.py:get_lim_indices"]}
{"id": "C57", "title": "Tables hold the given columns", "statement": "FlowData(*columns) holds exactly the given columns under their labels, in order, one record per element; columns of different length are refused with ValueError.", "quantifier": "all lists of labelled columns", "why_tests_cant": "All lists of columns and lengths.", "anchors": ["droplets/flow.py:FlowData.set_data", "droplets/flow.py:FlowData.get_data"]}
{"id": "C58", "title": "Spreading edges are taken from the lowest wet layer or the floor layer", "statement": "Without a floor, get_spreading_edges (longest connected search) returns the x positions of the ends of the longest stretch of droplet cells in the lowest layer that contains droplet cells, and (None, None) exactly if no layer does; with a floor only the layer chosen for the floor is used: that of the first record above the floor by at most 1, if there is one.", "quantifier": "all data maps in a box starting at 0 with layers stored from left to right, all cutoffs, radii and floors", "why_tests_cant": "All maps.", "anchors": ["strata/spreading/collect.py:get_spreading_edges"]}
{"id": "C59", "title": "Power law fits recover power laws", "statement": "If two different times are used there is exactly one best fit; data which follow r = a t^k with a > 0 at the used times give exactly these a and k, and scaling times and radii changes a by the factors and never k.", "quantifier": "all data, limits and positive scaling factors", "why_tests_cant": "All real data: a statement on the minimum of a function.", "anchors": ["strata/spreading/fit.py:get_fitting_parameters", "strata/spreading/fit.py:get_fitted_data"]}
{"id": "C60", "title": "Contact angles are the angles of the interface at the contact line", "statement": "get_contact_angle returns for each edge the angle, between 0 and 180 degrees and measured through the droplet, between the base and the line from the edge in the lowest interface layer (or the floor) to the edge in the layer chosen by the height; without layers at the height there is no result.", "quantifier": "all maps, search methods, heights, floors", "why_tests_cant": "A statement on trigonometric functions of all real data.", "anchors": ["droplets/interface.py:get_contact_angle"]}
{"id": "C61", "title": "The mean flow angle is the direction of the total momentum", "statement": "The sampled flow angle of a map is the angle in (-180, 180] of the sum of the mass weighted velocities of the bins which are used, so it does not change if all masses or all velocities are scaled by positive factors, and reverses by 180 degrees if the flow is reversed.", "quantifier": "all maps and cutoffs for which the total momentum is not zero", "why_tests_cant": "A statement on trigonometric functions of all real data.", "anchors": ["droplets/sample.py:sample_flow_angle", "strata/sample_average.py:sample_value"]}
{"id": "C62", "title": "Averaged contact line edges are averages relative to the contact line", "statement": "For each group of frames the averaged left (right) edge holds, for every place relative to the inner end of the edge, the average of the cells of the frames at that place (velocities weighted by mass, temperature by number, missing cells counted as 0), and is placed in the bin of the mean position of the inner ends; recentred edges are at opposite positions.", "quantifier": "all groups of frames whose edge cells fill rectangles", "why_tests_cant": "All sets of cells and frames.", "anchors": ["strata/contact_line_analysis.py:get_averaged_contact_line_edges", "strata/contact_line_analysis.py:add_adjusted_flow", "strata/contact_line_analysis.py:get_cut_shape"]}
{"id": "C63", "title": "Recombined contact line maps hold both edges", "statement": "The recombined map covers exactly the extent of both edges, holds their values (merged where both have data), can be made for all edges of real frames, and conserves the totals of all fields when the edges are fused; it is written to a file.", "quantifier": "all pairs of edges on a common grid", "why_tests_cant": "All edges.", "anchors": ["strata/contact_line_analysis.py:combine_flow_data", "strata/contact_line_analysis.py:fuse_edges", "strata/contact_line_analysis.py:extract_contact_line_bins"]}
{"id": "C64", "title": "Height maps show every bin in a cell of its own", "statement": "In a drawn height map, also one with a cutoff, the cell at the place of a bin shows exactly the value of that bin.", "quantifier": "all maps on regular grids, fields and cutoffs", "why_tests_cant": "All grids, sizes and values.", "anchors": ["strata/view_flowmap.py:height", "strata/view_flowmap.py:view_flowmap_2d"]}
{"id": "C65", "title": "Contour maps are drawn on the grid of the map", "statement": "Every point of the grid which is drawn by a contour map has the position and the value of the bin there, clipped to the limits, for maps with a cutoff and for derived fields as for others.", "quantifier": "all maps on regular grids, fields and limits", "why_tests_cant": "All grids, sizes and values.", "anchors": ["strata/view_flowmap.py:contour", "strata/view_flowmap.py:view_flowmap_2d"]}
{"id": "C66", "title": "Derived flow fields are the speed and the radial velocity", "statement": "The derived field 'flow' is the speed of the flow of each bin and the derived 'radial' field is its velocity away from the centre of mass.", "quantifier": "all maps and centres", "why_tests_cant": "A statement on trigonometric functions of all real data.", "anchors": ["strata/view_flowmap.py:add_absolute_flow", "strata/view_flowmap.py:add_radial_flow"]}
{"id": "C67", "title": "Every file of a series is drawn with the chosen field", "statement": "view_flowmap_2d draws every file with the field asked for, given or derived, with the default kind of drawing too; and stream lines can be drawn for every map.", "quantifier": "all sequences of files, fields and drawing types", "why_tests_cant": "All sequences of files.", "anchors": ["strata/view_flowmap.py:view_flowmap_2d", "strata/view_flowmap.py:get_streamline_data"]}
{"id": "C68", "title": "Interface files hold the collected points", "statement": "An interface file written by collect_interfaces is read back (by the sampling, viewing and angle commands) as the same number of points in the same order, each coordinate being the nearest number of three decimals: order is never reversed, coordinates with three decimals are exact; header lines are never taken for points.", "quantifier": "all interfaces of at least two points and all headers", "why_tests_cant": "All coordinates, numbers of points, paths and option texts.", "anchors": ["strata/interface/collect.py:write_interface_data", "strata/interface/angle.py:read_interface_file", "strata/interface/sample.py:sample_interfaces"]}
{"id": "C69", "title": "Collecting interfaces keeps frames, files and order", "statement": "collect_interfaces writes for every frame of the unbroken run of input files one output of the same number with the interface of that map, changes no other file and loses no content; if a map cannot be used the outputs of the frames before it are there and the run ends with the exception; areas sampled from the files are those of the true droplet.", "quantifier": "all disks, bases, ranges, extensions and sequences of maps", "why_tests_cant": "All histories of files and all sequences of maps.", "anchors": ["strata/interface/collect.py:collect_interfaces", "strata/interface/collect.py:get_interface_coordinates", "strata/interface/sample.py:sample_interfaces"]}
{"id": "C70", "title": "Measured contact angles are those of the line to the point at the height", "statement": "interface_contact_angle(height=h) gives for each edge the angle, between 0 and 180 degrees and seen from the inside, of the line from the lowest point to the point nearest to h above it; it does not change if the droplet is moved, enlarged together with h or seen in a mirror, and is the angle of the edge if that is straight; there is a value for every height above 0.", "quantifier": "all interfaces and heights", "why_tests_cant": "A statement on trigonometric functions of all real data.", "anchors": ["strata/interface/angle.py:measure_angle"]}
{"id": "C71", "title": "Fitted contact angles are those of the circular segment", "statement": "interface_contact_angle(fit=True) gives the contact angle of the circular segment with the distance of the feet as chord and the height of the interface over its feet as height; it is exact for circular droplets, wherever they are and whatever their size.", "quantifier": "all interfaces and circular droplets", "why_tests_cant": "A statement on trigonometric functions of all real data.", "anchors": ["strata/interface/angle.py:fit_angle_from_segment"]}
{"id": "C72", "title": "Angles of a series of interface files", "statement": "The edges used for a file are the left and right points of the collected interface in order of height; the lists of angles hold at place i the angles of file i, the times are i times delta_t, and the columns written are in the order of the legend; a file which cannot be read ends the run.", "quantifier": "all series of files, ranges and options", "why_tests_cant": "All series of files and interfaces.", "anchors": ["strata/interface/angle.py:interface_contact_angle", "strata/interface/angle.py:read_interface_file", "strata/interface/angle.py:write_angle_data"]}
{"id": "C73", "title": "Collecting spreading curves from files on disk", "statement": "spreading.collect reads exactly the frames of the unbroken run of numbered files, writes only the output file, changes no other file and loses no content; a map which cannot be used ends the run with its exception and the rows of the frames before it are in the output; without an output name nothing is written and the result is the same.", "quantifier": "all disks, bases, ranges and options", "why_tests_cant": "All histories of files and all sequences of maps.", "anchors": ["strata/spreading/collect.py:collect", "strata/spreading/collect.py:write_spreading", "strata/spreading/collect.py:write_header"]}
{"id": "C74", "title": "Saved spreading curves are read back as collected", "statement": "A file saved by spreading.collect is read back by the viewing and fitting commands as the collected curve: same number of rows in the same order, times and radii rounded to the decimals of the file; header lines never become points; a missing or unreadable file is warned about and the other files are read.", "quantifier": "all collected curves, headers and sets of files", "why_tests_cant": "All curves, file names and option texts.", "anchors": ["strata/spreading/collect.py:write_spreading", "strata/spreading/collect.py:output_impact_time", "strata/spreading/view.py:read_spreading_data"]}
{"id": "C75", "title": "Combined spreading curves can be read again", "statement": "The .xvg file saved by view_spreading has one graph per shown curve in the same order, and reading it gives these curves, scaled and synchronised as shown; saving is optional and changes no other file.", "quantifier": "all lists of curves, options and environments", "why_tests_cant": "All curves and numbers of curves.", "anchors": ["strata/spreading/view.py:view_spreading", "strata/spreading/view.py:combine_spreading_data", "strata/spreading/view.py:write_spreading_data", "strata/spreading/view.py:read_spreading_data"]}
{"id": "C76", "title": "Fitting spreading files gives one power law per droplet", "statement": "fit_spreading_data returns one pair (a, k) for each droplet file in the order of the files, and the pair of a file with r = a t^k is (a, k).", "quantifier": "all sets of files and all power laws", "why_tests_cant": "A statement on logarithms of all real data.", "anchors": ["strata/spreading/fit.py:fit_spreading_data", "strata/spreading/fit.py:get_fitting_parameters"]}
{"id": "C77", "title": "Which command lines are accepted", "statement": "A strata command runs exactly when the words are options and arguments as documented, every value can be read as the type of its option (numbers, 'none', choices, existing files, ...) and help is not asked for; otherwise nothing is done. Of an option given several times the last one counts; where the options stand between the other words, and whether values are attached with '=' or bundled, does not matter.", "quantifier": "all command lines and all texts of values", "why_tests_cant": "The set of command lines and texts is infinite.", "anchors": ["strata/strata.py:average_cli", "strata/strata.py:spreading_collect_cli", "strata/strata.py:strata", "strata/strata.py:OptIntParamType", "strata/strata.py:OptFloatParamType", "strata/strata.py:ListFloatValsParamType", "strata/strata.py:ListStrsParamType"]}
{"id": "C78", "title": "Options and arguments reach the library unchanged", "statement": "An accepted command calls its library function once, with every option under its documented name and with the value given or the documented default, the last frame number infinite unless given, and the remaining words as positional arguments; 'strata average', 'convert', 'spreading collect', 'spreading view' and 'interface collect' have the same effects on files as the function called with these values.", "quantifier": "all accepted command lines and disks", "why_tests_cant": "All combinations of fifteen commands, their options, spellings and values.", "anchors": ["strata/strata.py:average_cli", "strata/strata.py:convert_cli", "strata/strata.py:spreading_collect_cli", "strata/strata.py:spreading_view_cli", "strata/strata.py:interface_collect_cli", "strata/strata.py:set_none_to_inf"]}
{"id": "C79", "title": "Commands end without an error when their work is done", "statement": "Every accepted command calls its function, and if that function does its work the program ends without an error; every command and option of the manual exists and has an effect.", "quantifier": "all accepted command lines and disks", "why_tests_cant": "All command lines and outcomes of the functions.", "anchors": ["strata/strata.py:interface_collect_cli", "strata/strata.py:interface_view_cli", "strata/strata.py:interface_angle_cli", "strata/strata.py:view_heightmap_cli", "strata/strata.py:contact_line"]}
{"id": "C80", "title": "Sampling interfaces writes a row for every interface which can be sampled", "statement": "sample_interfaces gives, in the order of the unbroken run of files, the time (number of the file times delta_t) and the area or length of every interface; files whose area cannot be measured are left out without moving the times of the others; the same rows, rounded to three decimals, are below a header which records the input, the variable and delta_t; a file which cannot be read ends the run with its exception, with the rows before it in the output; no other file is changed and no content lost.", "quantifier": "all disks, bases, ranges, variables, steps of time and interfaces", "why_tests_cant": "All histories of files and all sequences of interfaces.", "anchors": ["strata/interface/sample.py:sample_interfaces", "strata/interface/sample.py:write_header", "strata/utils.py:write_module_header"]}
{"id": "C81", "title": "Sampling averages writes a row for every map", "statement": "sample_average_files returns for the unbroken run of maps the times and for each label the values in the order of the files; the same numbers, to six significant digits and with the standard deviation where there is one, are below a header which records the options; an exception from reading ends the run, a map which cannot be sampled makes it return None, and in both cases the rows before it are in the output; no other file is changed and no content lost.", "quantifier": "all disks, bases, ranges, labels, options and maps", "why_tests_cant": "All histories of files and all sequences of maps.", "anchors": ["strata/sample_average.py:sample_average_files", "strata/sample_average.py:write_header", "strata/sample_average.py:sample_value"]}
{"id": "C82", "title": "The table of contact angles is what was measured", "statement": "interface_contact_angle with an output writes one row per file with the time and the angles which were asked for, rounded to three decimals, below a header which records the options and names the columns; NaN values are converted to 0; reading it back gives these numbers; if a file cannot be used there is no output; no other file is changed and no content lost.", "quantifier": "all disks, bases, ranges, options and interfaces", "why_tests_cant": "All histories of files and all sequences of interfaces, with trigonometric functions of all real data.", "anchors": ["strata/interface/angle.py:interface_contact_angle", "strata/interface/angle.py:write_angle_data"]}
{"id": "C83", "title": "Viewing interfaces averages every bundle of files that can be read", "statement": "view_interfaces returns for every full bundle of M files of the unbroken run, in order, the averaged interface as x values and heights; bundles with a file which cannot be read, or with a height twice on an edge, are skipped without an effect on the others; every interface of more than one point is drawn, in a figure with the number of its bundle; averages are saved if that is asked for; nothing else on the disk changes.", "quantifier": "all disks, bases, ranges, bundle sizes and interfaces", "why_tests_cant": "All histories of files, bundles and failures.", "anchors": ["strata/interface/view.py:view_interfaces", "strata/interface/view.py:read_interface_files", "strata/interface/view.py:average_interfaces"]}
{"id": "C84", "title": "Figure options reach the figure and nothing else", "statement": "A drawing function decorated for figures gets all keywords except the documented figure options, as they were given; the figure gets every option that was given, or its default; the picture is saved after everything was drawn and set, before it is shown, and cleared last; if drawing fails nothing is saved; 'no_axis' hides the axes; 'dims' is the size of the picture in pixels.", "quantifier": "all keyword arguments and all failures of the drawing library", "why_tests_cant": "All combinations of nineteen options with other keywords and all points of failure.", "anchors": ["strata/utils.py:decorate_graph", "strata/view_flowmap.py:create_figure"]}
{"id": "C85", "title": "Interfaces side by side keep every height", "statement": "combine_interfaces returns for each edge a frame with a row for every height of any interface, from below, and in each column the x value of that interface, missing where it has no such height.", "quantifier": "all lists of interfaces", "why_tests_cant": "All numbers of interfaces and all sets of heights.", "anchors": ["strata/interface/view.py:combine_interfaces", "strata/interface/view.py:all_coords_to_edges"]}
{"id": "C86", "title": "Flow fields are shown for every file", "statement": "view_flowfields makes one figure for every file, in order, with an arrow for every bin with flow inside the limits and not below the cutoff, coloured as asked (by a field, speed, dissipation, flow around the centre of mass or evaporation, otherwise all alike), and with the figure options; stream lines instead, if asked for; a file which cannot be read raises after the figures of those before it; a figure which cannot be drawn is reported and ends the run; every figure is saved under the name asked for and none is lost.", "quantifier": "all disks, sequences of files, labels, cutoffs, colours, limits, options and failures of the drawing library", "why_tests_cant": "All sequences of files, maps and options with all points of failure.", "anchors": ["strata/view_flowmap.py:view_flowfields", "strata/view_flowmap.py:get_quiver_data", "strata/view_flowmap.py:plot_quiver"]}
{"id": "C87", "title": "Maps are drawn for every file", "statement": "view_flowmap_2d makes one figure for every file, in order, with the value of every bin of the field asked for, in the file or derived, at its place, as a height map or as contours inside the limits; bins below the cutoff are left out; a file which cannot be read, or a figure which cannot be drawn, raises after the figures before it; limits are optional and 'average_value' prints the average.", "quantifier": "all disks, sequences of files with maps on grids, fields, cutoffs, options and failures of the drawing library", "why_tests_cant": "All sequences of files, grids, fields and options with all points of failure.", "anchors": ["strata/view_flowmap.py:view_flowmap_2d", "strata/view_flowmap.py:height", "strata/view_flowmap.py:contour"]}
{"id": "C88", "title": "Contact line maps and samples of files are written", "statement": "extract_contact_line_bins writes for every group of input files the averaged contact line map to the output file of its number; sample_contact_line_edges writes a header with its input and a line for every group with its time and the sampled values; a file which cannot be used raises after the groups before it; quiet only keeps progress from being printed. No content on the disk is lost and no other file changes.", "quantifier": "all disks, runs of files, group sizes, maps with contact lines, labels and options", "why_tests_cant": "All histories of the disk, runs of files, group sizes and points of failure.", "anchors": ["strata/contact_line_analysis.py:extract_contact_line_bins", "strata/contact_line_analysis.py:sample_contact_line_edges", "strata/contact_line_analysis.py:write_header"]}
{"id": "C89", "title": "The viewing commands draw what was asked for", "statement": "'strata view flow', 'view height' and 'view contour' with a list of files draw one figure per file, in order, of the field or arrows and the colour chosen, with the cutoff, limits and levels given, and with the title, labels, axes, size, saving and showing given on the command line; '--streamlines' draws stream lines.", "quantifier": "all command lines accepted by the parser, disks, files and failures of the drawing library", "why_tests_cant": "All combinations of options, values, files and points of failure.", "anchors": ["strata/strata.py:view_quiver_cli", "strata/strata.py:view_heightmap_cli", "strata/strata.py:view_contour_cli", "strata/view_flowmap.py:view_flowfields", "strata/view_flowmap.py:view_flowmap_2d"]}
{"id": "C90", "title": "Curves are drawn", "statement": "view_spreading draws, in one figure, a curve for every series in the files, after scaling and synchronising; fit_spreading_data every series and its fit, labelled with the name of the series and with the fitted parameters; interface_contact_angle the fitted and mean measured angles over time, with a legend; sample_interfaces the samples over time; view_interfaces every averaged interface of more than one point in a figure of its own, saved under the number of its group. A figure is made when it is to be shown or saved, follows the figure options given, and a figure that cannot be drawn raises.", "quantifier": "all disks, files, runs, options and failures of the drawing library", "why_tests_cant": "All series, runs of files and options with all points of failure.", "anchors": ["strata/spreading/view.py:view_spreading", "strata/spreading/view.py:plot_spreading_data", "strata/spreading/fit.py:fit_spreading_data", "strata/spreading/fit.py:plot_fitting_data", "strata/interface/angle.py:interface_contact_angle", "strata/interface/angle.py:draw_figure", "strata/interface/sample.py:plot_interface_area", "strata/interface/view.py:view_interfaces", "strata/interface/view.py:plot_interface_data"]}
{"id": "C91", "title": "Results do not depend on units or the origin", "statement": "When a flow map is given in another unit of length, with another origin, and with its fields in other units, and the cutoff, radius, limits and heights given are changed with it, then the same cells form the interface and are extracted at the contact line, the contact angles are the same, and the edges, spreading radii, center of mass and slip length are the same places and lengths in the new units. (With the search for the longest stretch in a periodic box the origin along x is that of the box.)", "quantifier": "all flow maps, fields, units, origins and options", "why_tests_cant": "All maps and all changes of units; tests use one map in one unit.", "anchors": ["droplets/interface.py:get_interface", "droplets/interface.py:get_contact_angle", "droplets/contact_line.py:get_contact_line_cells", "strata/spreading/collect.py:get_spreading_edges", "strata/spreading/collect.py:collect", "droplets/sample.py:sample_center_of_mass", "strata/sample_average.py:sample_slip_length"]}
{"id": "C92", "title": "The order of the records does not matter", "statement": "Two flow maps with the same records in different orders give, with the default search, interfaces whose layers are at the same places, the same cells at the contact line, the same contact angles, the same spreading edges and the same center of mass, or the same errors.", "quantifier": "all flow maps, all orders of their records and all options", "why_tests_cant": "All permutations of all maps; a test uses one order.", "anchors": ["droplets/interface.py:get_interface", "droplets/interface.py:get_contact_angle", "droplets/contact_line.py:get_contact_line_cells", "strata/spreading/collect.py:get_spreading_edges", "droplets/sample.py:sample_center_of_mass"]}
{"id": "C93", "title": "Left and right are treated alike", "statement": "The mirror image of a flow map gives, with the default search, the mirror image of the interface: the left edge is the mirrored right edge and the other way around, the cells at the two contact lines, the two contact angles and the two spreading edges change places, and the center of mass is mirrored.", "quantifier": "all flow maps, mirror positions and options", "why_tests_cant": "All maps; the two sides are searched by different code paths.", "anchors": ["droplets/interface.py:get_interface", "droplets/interface.py:get_contact_angle", "droplets/contact_line.py:get_contact_line_cells", "strata/spreading/collect.py:get_spreading_edges", "droplets/sample.py:sample_center_of_mass"]}
{"id": "C94", "title": "The file of fits is complete and readable", "statement": "When asked to, fitting of spreading data saves a file which records the limits of the fit and of the drawn curves and names every input curve together with its fitted parameters; reading the file gives the fitted curve of every input curve, in order, as it was shown. Limits are optional and default to none. Saving changes no other file and loses no content; without a path nothing is written. The parameters are returned.", "quantifier": "all files of spreading data, limits, output paths and disks", "why_tests_cant": "The file is a combination of header, names and curves of all inputs; tests fit one curve and do not read the file back.", "anchors": ["strata/spreading/fit.py:fit_spreading_data", "strata/spreading/fit.py:write_fitting_data", "strata/spreading/fit.py:get_fitted_data", "strata/spreading/view.py:read_spreading_data"]}
{"id": "C95", "title": "The spreading and interface commands draw what was asked for", "statement": "'strata spreading view', 'spreading fit', 'interface angle', 'interface sample' and 'interface view' draw the curves of their data, one figure per averaged interface for the last and otherwise one figure, with the title, axis labels, limits, scale, legend and output name given on the command line or their documented defaults; the figure is shown if showing is on and saved if a name was given; the files saved with '-x' and the results are those of the same run without a figure.", "quantifier": "all command lines accepted by the parser, disks, files, runs and failures of the drawing library", "why_tests_cant": "All combinations of options, values, files and points of failure.", "anchors": ["strata/strata.py:spreading_view_cli", "strata/strata.py:spreading_fit_cli", "strata/strata.py:interface_angle_cli", "strata/strata.py:interface_sample_cli", "strata/strata.py:interface_view_cli", "strata/spreading/view.py:view_spreading", "strata/spreading/fit.py:fit_spreading_data", "strata/interface/angle.py:interface_contact_angle", "strata/interface/sample.py:sample_interfaces", "strata/interface/view.py:view_interfaces"]}
{"id": "C96", "title": "Commands can be chained through the files they write", "statement": "Interfaces saved by 'strata interface collect' can be sampled by 'strata interface sample' with the same base name and any range of their numbers: the file it saves has one row per saved interface of the range, in order, whose time counts from zero in steps of delta_t and whose area or length is that of the collected points rounded to the three decimals of the files. Edges saved by 'strata spreading collect' are drawn by 'strata spreading view': the first curve has one point per frame with edges, whose time counts these frames and whose radius is half of the droplet's width, both to three decimals, wherever in the periodic box the droplet is.", "quantifier": "all maps, numbers of files, options of both commands, points of the interfaces and trajectories of the droplet; all trees of files in which the files read exist and the files written are not the files read", "why_tests_cant": "a test of two commands runs them on one set of maps; that nothing of what one wrote is lost to the other must hold for every text of names and values and every set of points", "anchors": ["strata/strata.py:interface_collect_cli", "strata/strata.py:interface_sample_cli", "strata/strata.py:spreading_collect_cli", "strata/strata.py:spreading_view_cli", "strata/interface/collect.py:collect_interfaces", "strata/interface/sample.py:sample_interfaces", "strata/spreading/collect.py:collect", "strata/spreading/view.py:view_spreading"]}
{"id": "C97", "title": "Collected interfaces are drawn as they were collected", "statement": "If the layers of the interfaces saved by 'strata interface collect' are more than 0.001 apart, 'strata interface view' with the same base name and any range of their numbers draws one figure for each group of '--average' interfaces, in order, of the average of the points which were saved, each to three decimals; without averages each interface is drawn with exactly the points in its file, and with '-o' its figure is saved under the number of the interface. If drawing fails, the figures before it were made and the exception is raised.", "quantifier": "all maps, options of both commands, numbers of files and interfaces with layers more than 0.001 apart; all behaviours of the drawing library", "why_tests_cant": "a test of two commands looks at one figure; that points survive writing, reading, averaging and drawing must hold for all interfaces and ranges", "anchors": ["strata/strata.py:interface_collect_cli", "strata/strata.py:interface_view_cli", "strata/interface/collect.py:collect_interfaces", "strata/interface/view.py:view_interfaces"]}
{"id": "C98", "title": "The contact angles of collected interfaces are those of their points", "statement": "If the layers of the interfaces saved by 'strata interface collect' are more than 0.001 apart, 'strata interface angle' with the same base name and any range of their numbers succeeds and saves one row per interface of the range, in order, whose time counts from zero in steps of delta_t. With '-h' the row has the angles, on the side of the liquid, of the lines from the lowest saved point of the left and of the right edge to the saved point nearest to the height above it, and their mean; an angle is missing if that point is the lowest itself. With '--fit' it has the angle of the circle segment over the line between the two lowest points which is as high as the highest saved point is above y = 0. The points are those collected, to three decimals. Reading the saved table gives the rows, to three decimals.", "quantifier": "all maps, options of both commands, numbers of files and interfaces with layers more than 0.001 apart", "why_tests_cant": "a test of two commands looks at one set of maps; that edges and feet are recovered from the file must hold for all interfaces and ranges", "anchors": ["strata/strata.py:interface_collect_cli", "strata/strata.py:interface_angle_cli", "strata/interface/collect.py:collect_interfaces", "strata/interface/angle.py:interface_contact_angle", "strata/interface/angle.py:read_interface_file"]}
