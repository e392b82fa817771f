{"id": "C01", "title": "Coefficient matrix addressing is a bijection", "statement": "For every storage scheme (dense row-major, dense column-major, packed lower-triangular row-wise, packed lower-triangular column-wise) and every dimension, each stored (row, column) pair owns exactly one cell of the allocated array, no two pairs share a cell, every cell is owned by a pair, and no cell lies outside the allocation.", "quantifier": "all matrix dimensions and all pairs of stored positions", "why_tests_cant": "dimensions are unbounded and a collision/overflow appears only for particular combinations; tests sample a few sizes", "anchors": ["include/coeff_matrix_storage.hpp: StorageImplementation<...>::index/num_elements", "include/coeff_matrix_2d.hpp: CoeffMatrix2D::operator()"]}
{"id": "C02", "title": "Trapezoid addressing", "statement": "For a trapezoidal matrix with any number of rows and columns, each stored position (row, column), column <= row, column < columns, owns its own in-range cell and all cells are owned; positions outside the stored part are never silently aliased to stored ones.", "quantifier": "all row/column counts and all positions", "why_tests_cant": "the two index formulas meet at a boundary that depends on both dimensions", "anchors": ["include/coeff_matrix_storage.hpp: StorageImplementation<Trapezoid>"]}
{"id": "C03", "title": "Slice access equals element access", "statement": "Walking the contiguous slice (row or column) of a matrix from its first stored element visits exactly the elements returned by element access for that row/column, in order, and the slices tile the allocation without gap or overlap.", "quantifier": "all storage schemes, dimensions, slices and positions", "why_tests_cant": "needs all dimensions at once", "anchors": ["include/coeff_matrix_storage.hpp: slice, num_slices, first_row_of_col, first_col_of_row", "include/coeff_matrix_2d.hpp: row/column/slice pointers"]}
{"id": "C04", "title": "Copying and resizing keep the right data", "statement": "After copy construction or copy assignment the destination has the dimensions and elements of the source whatever the destination's previous size; after resize the dimensions are the requested ones; after cresize all elements present in both the old and new shape keep their values and the rest of each added part is zero or unspecified as documented.", "quantifier": "all old shapes, new shapes, contents and previous capacities", "why_tests_cant": "the reallocate/reuse decision depends on the whole history of previous sizes", "anchors": ["include/coeff_matrix_2d.hpp: operator=, CoeffMatrix2D(const&), resize, cresize"]}
{"id": "C05", "title": "Matrix expressions are element-wise", "statement": "Scaling, sums of (scaled) matrices, assignment from such expressions and += give at every stored position the scalar result of the same expression, including when the right operand is a smaller view.", "quantifier": "all shapes, storage schemes, scalars, element values", "why_tests_cant": "universally quantified over shapes and values", "anchors": ["include/coeff_matrix_2d.hpp: _ScaledProxy, _SumProxy, operator+=, reduce_copy, multiply"]}
{"id": "C06", "title": "Matrix buffers are neither leaked nor freed twice", "statement": "For any finite sequence of construct, copy, move, assign, swap, resize and destroy operations on matrices, every allocated buffer is freed exactly once by the time all matrices are destroyed, and no operation touches a freed buffer.", "quantifier": "all finite histories of operations on any number of matrix objects", "why_tests_cant": "histories are unbounded; a leak or double free shows up only in particular orders such as move-assigning onto a non-empty object", "anchors": ["include/coeff_matrix_2d.hpp: constructors, destructor, operator=(CoeffMatrix2D&&)"]}
{"id": "C07", "title": "Matrix representation invariant", "statement": "After any sequence of public operations a matrix owns a buffer of exactly its recorded capacity and the number of stored elements never exceeds that capacity, so that every in-range access is inside the allocation.", "quantifier": "all finite operation histories", "why_tests_cant": "invariant over unbounded histories", "anchors": ["include/coeff_matrix_2d.hpp: _capacity, m_data, resize, cresize, operator="]}
{"id": "C08", "title": "Adding Stokes coefficient sets", "statement": "Adding a coefficient set to another of at least its degree and order changes exactly the coefficients up to the smaller set's degree and order, by exactly the smaller set's values; adding a larger set is refused and leaves the target unchanged.", "quantifier": "all degrees, orders and coefficient values", "why_tests_cant": "all pairs of sizes", "anchors": ["src/lib/stokes_coefficients.cpp: StokesCoeffs::operator+="]}
{"id": "C09", "title": "Degree/order bookkeeping of Stokes coefficients", "statement": "Whatever public operations are applied (construction, resize, cresize, shrink, copy, move, scaling), every coefficient of degree n <= max_degree and order m <= min(n, max_order) can be accessed inside the allocated storage, and max_order <= max_degree.", "quantifier": "all operation histories", "why_tests_cant": "moved-from and shrunk objects only occur in particular histories", "anchors": ["include/stokes_coefficients.hpp: StokesCoeffs", "src/lib/stokes_coefficients.cpp"]}
{"id": "C10", "title": "Scaling Stokes coefficients", "statement": "Scaling multiplies every stored coefficient by the factor, for every degree, and scaling by a then b equals scaling by a*b.", "quantifier": "all degrees and factors", "why_tests_cant": "all sizes including the degenerate ones", "anchors": ["include/stokes_coefficients.hpp: scale"]}
{"id": "C11", "title": "Doodson number text round trip", "statement": "Writing a Doodson number as text and reading that text back returns the same six multipliers, for every multiplier combination representable in the notation.", "quantifier": "all 6-tuples of multipliers in the representable range", "why_tests_cant": "36^6 combinations", "anchors": ["include/doodson.hpp, src/lib/doodson/doodson_to_str.cpp: DoodsonConstituent::str, from_chars, char2int, int2char"]}
{"id": "C12", "title": "Doodson number parsing rejects malformed text", "statement": "Reading a Doodson string either throws or yields the multipliers denoted by the text; strings with characters that are not legal digits/letters or without the dot separator are rejected.", "quantifier": "all character strings", "why_tests_cant": "infinitely many strings", "anchors": ["src/lib/doodson/doodson_from_chars.cpp", "src/lib/doodson/resolve_iers2010_doodson_string.cpp"]}
{"id": "C13", "title": "Tidal argument is the Doodson combination of Delaunay variables", "statement": "The tidal argument computed from the six Doodson variables derived from Delaunay variables and GMST equals, modulo a full turn, the IERS combination of GMST+pi and Delaunay variables for that constituent, for all constituents, and is additive in the multipliers.", "quantifier": "all real Delaunay variables, GMST angles and integer multipliers", "why_tests_cant": "continuous inputs", "anchors": ["include/doodson.hpp: argument, delaunay2doodson"]}
{"id": "C14", "title": "EOP interpolation status tells the truth", "statement": "Interpolating an EOP series at an epoch reports out-of-bounds-before exactly when the epoch precedes the first record, out-of-bounds-after exactly when it is not earlier than the last record, and otherwise the requested degree is reported exactly when it was used; out-of-bounds requests return the nearest record's values.", "quantifier": "all sorted series, epochs and degrees", "why_tests_cant": "all series lengths, positions and degrees", "anchors": ["src/lib/eop/lagrange_interpolation.cpp: EopSeries::interpolate", "include/eop.hpp"]}
{"id": "C15", "title": "EOP interpolation reproduces the data", "statement": "In bounds, interpolation at an epoch of a record returns that record's values (with UT1-UTC restored for leap seconds), and if the tabulated values are samples of a polynomial of degree lower than the number of nodes used, the interpolated value is the polynomial's value.", "quantifier": "all series, epochs, polynomials and degrees", "why_tests_cant": "continuous inputs and all series", "anchors": ["src/lib/eop/lagrange_interpolation.cpp"]}
{"id": "C16", "title": "EOP interpolation is independent of previous queries", "statement": "The result of an interpolation query on a given series depends only on the series, the epoch and the degree, not on the queries made before.", "quantifier": "all query histories", "why_tests_cant": "unbounded histories through a cached position", "anchors": ["include/eop.hpp: EopSeries::last_it, upper_bound", "src/lib/eop/lagrange_interpolation.cpp"]}
{"id": "C17", "title": "Regularisation round trip", "statement": "Regularising and then de-regularising an EOP series restores UT1-UTC and LOD of every record and touches nothing else.", "quantifier": "all series", "why_tests_cant": "all series and values", "anchors": ["src/lib/eop/regularize.cpp"]}
{"id": "C18", "title": "EOP file parsing keeps exactly the requested interval", "statement": "When parsing an IERS C04 file succeeds, the series holds exactly the records of the file whose epoch is in [start, end), in file order, with the values of the file columns; when start >= end or the file is malformed in the interval an error is returned.", "quantifier": "all file contents and intervals", "why_tests_cant": "all files", "anchors": ["src/lib/eop/parse_iers_c0414.cpp", "src/lib/eop/parse_iers_c0420.cpp"]}
{"id": "C19", "title": "AOD1B file name composition", "statement": "The AOD1B file name composed for a satellite, date, release and compression flag contains those parts, and asking for the compressed variant appends the .gz suffix.", "quantifier": "all dates, releases, flags", "why_tests_cant": "all combinations", "anchors": ["src/lib/aod1b/aod1bnontidalproductnaming.cpp"]}
{"id": "C20", "title": "AOD1B stream interpolation brackets the request", "statement": "When a coefficient query on an AOD1B stream reports success, the two data blocks used bracket the requested epoch and the result is their linear interpolation; queries in any order give the same result as on a fresh stream.", "quantifier": "all sequences of query epochs, all block epochs", "why_tests_cant": "unbounded query histories over files of any length", "anchors": ["include/aod1b_data_stream.hpp, src/lib/aod1b/aod1b_data_stream.cpp: Aod1bDataStream::coefficients_at, hunt_range"]}
{"id": "C21", "title": "AOD1B block reading truncates correctly", "statement": "Reading a data block up to a degree and order stores exactly the coefficients of the block with degree and order within the request and consumes exactly the number of data lines announced by the block header; any malformed line gives an error.", "quantifier": "all block contents and requested degree/order", "why_tests_cant": "all blocks", "anchors": ["src/lib/aod1b/aod1b_collect_coeffs.cpp"]}
{"id": "C22", "title": "ICGEM coefficient reading", "statement": "Reading an ICGEM gravity model up to a degree and order yields for each coefficient the sum of static, trend and periodic terms given by the file at the requested epoch, only for degree/order within the request, and a failed read leaves the caller's coefficients unchanged.", "quantifier": "all file records, epochs, degree and order limits", "why_tests_cant": "all files and epochs", "anchors": ["src/lib/icgem/icgemio_read_data_v1.cpp", "src/lib/icgem/icgemio_read_data_v2.cpp"]}
{"id": "C23", "title": "Regular grid index/node round trip", "statement": "On a regular grid, converting a node's (x,y) indices to a linear index and back returns the same node, for both leading-axis orders.", "quantifier": "all grid sizes, both axis orders, all nodes", "why_tests_cant": "all grid sizes", "anchors": ["include/grid.hpp: xyindex, xyindex2node"]}
{"id": "C24", "title": "Grid cell lookup", "statement": "For a point inside the grid, the four node indices returned are the corners of the cell containing the point (bottom-left, bottom-right, top-left, top-right) and all lie in the grid; for a point outside, no node index is returned.", "quantifier": "all grids and points", "why_tests_cant": "continuous points, all grid shapes", "anchors": ["include/grid.hpp: surrounding_nodes, out_of_range"]}
{"id": "C25", "title": "Tide atlas keeps wave identities unique", "statement": "Whatever sequence of waves is appended to a tide atlas, no two stored waves have the same Doodson number, appended waves are retrievable, and appending a present wave is refused without changing the atlas.", "quantifier": "all append histories", "why_tests_cant": "unbounded histories", "anchors": ["src/lib/tide_atlas.cpp: append_wave, find_tidal_wave"]}
{"id": "C26", "title": "GROOPS file name round trip", "statement": "Composing a GROOPS tide model file name from model, Doodson number, wave and sine/cosine tag and parsing it back gives the same parts.", "quantifier": "all legal names", "why_tests_cant": "all strings", "anchors": ["src/lib/tide_atlas_groops.cpp: GroopsTideModelFileName, compile"]}
{"id": "C27", "title": "GROOPS file list validation", "statement": "A GROOPS file list is accepted only if every sine file has its cosine companion (and vice versa) and no file is repeated.", "quantifier": "all file lists", "why_tests_cant": "all lists", "anchors": ["src/lib/tide_atlas_groops.cpp: validate_file_list"]}
{"id": "C28", "title": "Ocean tide coefficients are the harmonic sum", "statement": "The ocean tide Stokes coefficients at given arguments equal the sum over waves of cosine part times cos(theta) plus sine part times sin(theta), independent of previous evaluations and of the order in which waves were appended.", "quantifier": "all atlases, arguments, evaluation histories", "why_tests_cant": "continuous arguments, all atlases", "anchors": ["src/lib/ocean_tide/ocean_tide_potential.cpp"]}
{"id": "C29", "title": "Ocean tide object ownership", "statement": "For any sequence of construction, copy, move, assignment and destruction of ocean tide objects, the admittance model is freed exactly once and never used after being freed.", "quantifier": "all finite histories", "why_tests_cant": "a dangling pointer needs a specific order of moves", "anchors": ["include/ocean_tide.hpp: OceanTide move assignment, destructor, set_groops_admittance"]}
{"id": "C30", "title": "Atmospheric tide accumulator is large enough", "statement": "After any sequence of appended waves, the accumulator of the atmospheric tide has at least the degree and order of every wave.", "quantifier": "all append histories", "why_tests_cant": "the outcome depends on the order of appended sizes", "anchors": ["src/lib/atmospheric_tides/atm_tides_append_wave.cpp"]}
{"id": "C31", "title": "Solid Earth pole tide coefficients", "statement": "The solid Earth and ocean pole tide corrections of C21 and S21 are the IERS linear functions of the wobble (m1,m2), which itself is the difference of the pole and the secular pole.", "quantifier": "all epochs and pole coordinates", "why_tests_cant": "continuous inputs", "anchors": ["include/pole_tide.hpp: pole_tide_details::mcoeffs, PoleTide::stokes_coeffs, OceanPoleTide::stokes_coeffs"]}
{"id": "C32", "title": "Ocean pole tide coefficients do not depend on earlier calls", "statement": "Evaluating ocean pole tide Stokes coefficients gives a result which depends only on the current arguments, stays inside all tables for every accepted degree (<= 360), and leaves no stale value in the result.", "quantifier": "all call histories and all accepted degree/order", "why_tests_cant": "history dependence needs a second call with smaller degree", "anchors": ["src/lib/pole_tide/ocean_pole_tide_geopotential.cpp"]}
{"id": "C33", "title": "Ocean pole tide coefficient file reading", "statement": "Reading the Desai coefficient file fills exactly the entries within requested degree and order with the values of the file, leaves the others zero and reports malformed content.", "quantifier": "all file contents, all degree/order limits", "why_tests_cant": "all files", "anchors": ["src/lib/pole_tide/parse_desai02_coeffs.cpp"]}
{"id": "C34", "title": "Ocean pole tide site coefficients use the cell containing the site", "statement": "The coefficients used for a site are the bilinear interpolation of the four grid nodes surrounding the site's longitude and latitude, exact for bilinear fields.", "quantifier": "all sites and grids", "why_tests_cant": "continuous positions", "anchors": ["src/lib/pole_tide/get_desai_ocp_deformation_coeffs.cpp"]}
{"id": "C35", "title": "Free core nutation offsets", "statement": "Interpolated FCN amplitudes agree with the table at table epochs, lie between neighbouring values in between, the resulting (X,Y) has the amplitude of the interpolated pair, and reported uncertainties are never negative.", "quantifier": "all tables, epochs", "why_tests_cant": "continuous epochs", "anchors": ["src/lib/free_core_nutation/lambert.cpp"]}
{"id": "C36", "title": "Legendre function evaluation stays in bounds", "statement": "With an output array of the documented size, computing normalised associated Legendre functions writes only inside the array for every degree and order.", "quantifier": "all degrees, orders", "why_tests_cant": "all sizes including order = degree", "anchors": ["src/lib/gravity/forward_column_alf.cpp"]}
{"id": "C37", "title": "Legendre function values", "statement": "The forward-column recursion computes the fully normalised associated Legendre functions for every degree and order and latitude, and the second routine their derivative.", "quantifier": "all degrees, orders and latitudes", "why_tests_cant": "unbounded degrees, continuous latitude", "anchors": ["src/lib/gravity/forward_column_alf.cpp"]}
{"id": "C38", "title": "Spherical harmonic acceleration stays in bounds", "statement": "With scratch space of the size the routine requires or allocates, every access made while computing acceleration and gradient is inside the scratch arrays and no cell is used for two different quantities.", "quantifier": "all degrees and orders", "why_tests_cant": "all sizes", "anchors": ["src/lib/gravity/sh_cunningham_normalized_gradient.cpp"]}
{"id": "C39", "title": "Degree/order truncation of gravity", "statement": "The acceleration computed up to a requested degree and order depends only on coefficients within that degree and order.", "quantifier": "all coefficient sets and requested limits", "why_tests_cant": "all coefficient values", "anchors": ["src/lib/gravity/sh_cunningham_normalized_gradient.cpp"]}
{"id": "C40", "title": "Third body acceleration and its partials", "statement": "The returned partials are the derivative of the returned point-mass acceleration with respect to satellite position, symmetric and traceless.", "quantifier": "all satellite and body positions", "why_tests_cant": "continuous inputs", "anchors": ["src/lib/gravity/point_mass_acceleration.cpp"]}
{"id": "C41", "title": "Planet identifiers", "statement": "Every planet of the enumeration maps to its own NAIF identifier, distinct planets to distinct identifiers, and the text form is the decimal identifier, null-terminated, for every buffer of documented size.", "quantifier": "all planets, buffer sizes, previous buffer contents", "why_tests_cant": "all buffer sizes and contents", "anchors": ["src/lib/planets/planet_to_naif_id.cpp"]}
{"id": "C42", "title": "Kernel loading is idempotent and complete", "statement": "After asking for a kernel to be loaded it is loaded, exactly once however often asked, whatever other kernels are loaded.", "quantifier": "all kernel names and load histories", "why_tests_cant": "name relations such as one name being the prefix of another", "anchors": ["src/lib/planets/kernel.cpp: load_if_unloaded"]}
{"id": "C43", "title": "Earth rotation chain composes", "statement": "The GCRS to ITRS rotation equals the TIRS to ITRS rotation after the GCRS to TIRS rotation, all rotations are proper (orthonormal, determinant one), and they map the celestial pole coordinates to the pole.", "quantifier": "all angles", "why_tests_cant": "continuous angles", "anchors": ["include/earth_rotation.hpp: c2i, c2tirs, tirs2i, C"]}
{"id": "C44", "title": "Two GCRS-ITRS implementations agree", "statement": "The quaternion computed by closed formula and the one composed of elementary rotations describe the same rotation for every input in the domain.", "quantifier": "all angles and pole coordinates with X^2+Y^2<1", "why_tests_cant": "continuous inputs", "anchors": ["src/lib/earth_rotation/c2i06abz.cpp", "include/earth_rotation.hpp: c2i, C_qimpl"]}
{"id": "C45", "title": "Derivative of the Earth rotation matrix", "statement": "The returned derivative matrix is the time derivative of the Earth rotation matrix for the given rotation rate.", "quantifier": "all angles and rates", "why_tests_cant": "limits cannot be tested", "anchors": ["include/earth_rotation.hpp: dRdt"]}
{"id": "C46", "title": "Derivatives of fundamental arguments", "statement": "The derivative functions of the lunisolar arguments are the derivatives of the argument functions, and overloads taking an epoch agree with those taking Julian centuries.", "quantifier": "all epochs", "why_tests_cant": "continuous epochs", "anchors": ["include/fundarg.hpp: dfal03, dfalp03, dfaf03, dfad03, dfaom03"]}
{"id": "C47", "title": "Fundamental arguments are reduced to [0, 2pi)", "statement": "All fundamental argument functions return values in [0,2pi) for any epoch and are congruent to the defining polynomial modulo a full turn.", "quantifier": "all epochs (including before J2000)", "why_tests_cant": "continuous epochs", "anchors": ["include/fundarg.hpp: fal03 ... fane03"]}
{"id": "C48", "title": "Sidereal time and Earth rotation angle", "statement": "The Earth rotation angle equals the IAU 2000 expression modulo a turn for every UT1, and the sidereal time rate is the derivative of sidereal time.", "quantifier": "all epochs", "why_tests_cant": "continuous", "anchors": ["src/lib/iau/era00.cpp", "src/lib/iau/gmst.cpp", "src/lib/iau/dgmst.cpp", "src/lib/iau/gmst82.cpp"]}
{"id": "C49", "title": "Relativistic acceleration", "statement": "The relativistic acceleration equals the IERS 2010 expression (10.12) in SI units for all states; internal unit scaling has no effect on the result.", "quantifier": "all states and constants", "why_tests_cant": "continuous", "anchors": ["src/lib/relativity/iers12010_relativistic_correction.cpp: iers2010_relativistic_acceleration"]}
{"id": "C50", "title": "Solid Earth tide geopotential coefficients", "statement": "Each evaluation returns step-1 (Sun plus Moon) plus step-2 corrections at the right degree/order positions with all other coefficients zero; the closed-form Legendre functions and multiple-angle formulas used agree with the general definitions.", "quantifier": "all epochs, Sun and Moon positions, evaluation histories", "why_tests_cant": "continuous inputs, histories", "anchors": ["src/lib/solid_earth_tides/iers2010_stokes_coeffs.cpp", "src/lib/solid_earth_tides/iers2010_geopotential_step1.cpp", "src/lib/solid_earth_tides/iers2010_geopotential_step2.cpp"]}
{"id": "C51", "title": "Compensated summation is error free", "statement": "At each step of the compensated summation, accumulator plus compensation (before rounding the compensation) equals the exact sum of what was added: no low-order digits are lost, whatever the order of magnitudes.", "quantifier": "all sequences of finite doubles without overflow", "why_tests_cant": "floating-point corner cases", "anchors": ["include/kahan.hpp"]}
{"id": "C52", "title": "Legendre recursion factors do not overflow", "statement": "The integer products in the recursion factors stay inside int for the degrees the library supports.", "quantifier": "all degrees and orders", "why_tests_cant": "large degrees are too slow or never used in tests", "anchors": ["src/lib/gravity/forward_column_alf.cpp: anm, bnm, fnm"]}
{"id": "C53", "title": "Packed storage of Stokes coefficients round-trips", "statement": "Packing C and S into one square matrix and unpacking gives back every coefficient; unpacking and packing a square matrix gives back the matrix.", "quantifier": "all degrees, all coefficient values", "why_tests_cant": "all sizes and contents", "anchors": ["include/stokes_coefficients.hpp: to_anm, from_anm"]}
{"id": "C54", "title": "Copies of coefficient sets are deep", "statement": "A copied set has the dimensions and values of the original, the original and all other sets are unchanged, and later changes of one are not visible in the other.", "quantifier": "all histories of operations on any number of coefficient sets", "why_tests_cant": "aliasing shows up only for particular histories", "anchors": ["include/stokes_coefficients.hpp: copy constructor"]}
{"id": "C55", "title": "Tidal wave tables are unambiguous", "statement": "Looking up a tidal wave by name (either table) or by Doodson number returns exactly the table entry with that name or number, whatever the order of the table; every name fits its fixed-size member.", "quantifier": "all names and Doodson numbers", "why_tests_cant": "lookups are first-match over tables with hidden duplicate or folded keys; the set of queries is unbounded", "anchors": ["include/doodson.hpp: AtmosphericTidalHarmonics, OceanicTidalHarmonics", "src/lib/doodson/match_tadal_constituents.cpp", "src/lib/doodson/tidal_wave_tables.cpp"]}
{"id": "C56", "title": "Tabulated speeds match the Doodson numbers", "statement": "The angular speed tabulated with each atmospheric wave is the combination of the speeds of the six Doodson variables given by its multipliers.", "quantifier": "all table entries", "why_tests_cant": "tests exercise a few waves only", "anchors": ["include/doodson.hpp: AtmosphericTidalHarmonics"]}
{"id": "C57", "title": "AOD1B stream objects can be moved", "statement": "Creating, moving, querying and destroying AOD1B stream objects in any legal order never uses a dangling or null pointer and leaves no coefficient array behind.", "quantifier": "all sequences of object operations", "why_tests_cant": "unbounded programs; undefined behaviour often goes unnoticed", "anchors": ["include/aod1b_data_stream.hpp: Aod1bDataStream constructors, destructor, move operations"]}
{"id": "C58", "title": "ICGEM header reading", "statement": "Reading an ICGEM header sets each member from the last line whose keyword is exactly that member's, ignores all other lines, never writes outside the member arrays, refuses a file without end_of_head or without a mandatory keyword, and leaves the data section starting at the line after end_of_head.", "quantifier": "all header texts", "why_tests_cant": "free text before the header, argument lengths and missing keywords are not covered by sample files", "anchors": ["src/lib/icgem/icgemio_read_header.cpp: match_header_keyword, parse_header", "include/icgemio.hpp: Icgem members"]}
{"id": "C59", "title": "GROOPS atlas assembly", "statement": "Reading a GROOPS file list and its gfc files gives exactly one wave per Doodson number named in the list, and the sine and cosine coefficients of every wave are those of its sine and cosine file.", "quantifier": "all file lists, directories and file contents", "why_tests_cant": "file lists are unbounded and the result depends on their order", "anchors": ["src/lib/tide_atlas_groops.cpp: resolve_file_list, groops_atlas"]}
{"id": "C60", "title": "GROOPS Doodson and admittance matrices", "statement": "The Doodson matrix has one row of six integers per line, the admittance matrix has exactly as many rows as the atlas has waves and as many columns as there are Doodson numbers, every element being the number written in the file; other files are refused.", "quantifier": "all file contents", "why_tests_cant": "all texts", "anchors": ["src/lib/tide_atlas_groops.cpp: parse_doodson, parse_admittance, groops_atlas"]}
{"id": "C61", "title": "Free core nutation coefficient file", "statement": "Reading a coefficient file for an interval [from, to) gives exactly the entries of the file whose date lies in the interval, in file order; every file of a header and lines of five numbers is accepted, and any other file is reported by a return code.", "quantifier": "all files and intervals", "why_tests_cant": "files with missing numbers, blank lines, over-long lines or many lines are not in the test data", "anchors": ["src/lib/free_core_nutation/parse_lambert_coeffs.cpp", "include/fcn.hpp"]}
{"id": "C62", "title": "Acceleration and gravity gradient are the derivatives of the geopotential", "statement": "The acceleration returned by sh2gradient_cunningham is the gradient of the geopotential given by the normalised coefficients up to the requested degree and order, and the returned matrix consists of its second derivatives.", "quantifier": "all coefficients, positions other than the origin, degrees and orders", "why_tests_cant": "a test compares a few positions with another program; wrong weights in single terms, missing columns and shared cells show up for particular degree/order pairs only", "anchors": ["src/lib/gravity/sh_cunningham_normalized_gradient.cpp"]}
{"id": "C63", "title": "Planet position and state ask the ephemeris the same question", "statement": "planet_pos and planet_state return the same position: that of the requested body relative to the Earth in the J2000 frame without aberration, converted from kilometres to metres; unknown planets are refused and leave the output alone; sun_moon_gm converts cubic kilometres to cubic metres on request.", "quantifier": "all planets, epochs and ephemerides", "why_tests_cant": "depends on the ephemeris files installed; a text/number mix-up shows for single planets only", "anchors": ["src/lib/planets/planet_pos.cpp", "src/lib/planets/planet_state.cpp", "src/lib/planets/kernel_consts.cpp"]}
{"id": "C64", "title": "Site displacement by the solid Earth tide", "statement": "SolidEarthTide::displacement returns, in Earth-fixed axes, the displacement of IERS Conventions section 7.1.1.1: degrees two and three in phase, the out of phase and latitude dependent terms of both bodies, and the frequency dependent corrections with the amplitudes of Tables 7.3a and 7.3b where these list a wave; the result does not depend on the choice of spherical coordinates (poles included), and the deprecated functions give the same step 1.", "quantifier": "all sites, positions of Moon and Sun, epochs and arguments", "why_tests_cant": "the terms differ in size by factors of ten thousand, a sign error in a small wave is far below any test tolerance", "anchors": ["src/lib/solid_earth_tides/iers2010_displacement_step1.cpp", "src/lib/solid_earth_tides/iers2010_displacement_step2.cpp", "src/lib/solid_earth_tides/iers2010_site_displacement.cpp"]}
{"id": "C65", "title": "Tidal variations of pole, UT1 and length of day", "statement": "deop_libration, deop_ocean_tide and deop_zonal_tide return the sums of IERS Tables 5.1, 8.2/8.3 and 8.1 at the phases of the fundamental arguments (full turns immaterial); the length-of-day correction is minus the time derivative of the UT1 correction to within the rounding of the tables, wave by wave and in total, and the zonal correction of the rotation rate follows from that of the length of day; regularising an EOP series subtracts exactly these zonal sums.", "quantifier": "all arguments, all dates within a century of J2000, all rates of the arguments near the mean ones", "why_tests_cant": "154 waves with eight amplitudes each; a wrong digit or sign in a small wave is below any tolerance, and the derivative relation needs a limit", "anchors": ["src/lib/eop/libration.cpp", "src/lib/eop/ocean_tide_variation.cpp", "src/lib/eop/zonal_tides.cpp", "src/lib/eop/zonal_tides_iers.cpp", "src/lib/eop/regularize.cpp"]}
{"id": "C66", "title": "AOD1B data blocks, iteration and tidal files", "statement": "For a well-formed AOD1B file, set_begin followed by skip/collect and advance visits every data block of the chosen type exactly once, in file order, with the block's own set number, line count, epoch (TT), type and coefficients, and then reports the end of the file; for a well-formed tidal file get_tidal_wave_coeffs returns exactly the cosine and sine coefficients up to the requested degree and order and zero elsewhere; malformed files are refused without undefined behaviour.", "quantifier": "all files (any number of blocks, any data), all requested degrees and orders", "why_tests_cant": "Depends on the number of blocks announced against the position of the wanted one, on the number of blanks, on a missing final newline and on reading behind the end of a line, none of which shows with the one sample file.", "anchors": ["src/lib/aod1b/aod1b_goto_next_block.cpp:4-86", "src/lib/aod1b/aod1b_parse_data_block_header.cpp:14-64", "src/lib/aod1b/aod1b_skip_header.cpp:12-61", "src/lib/aod1b/aod1b_get_tidal_wave.cpp:14-163", "include/aod1b.hpp:387-495"]}
{"id": "C67", "title": "AOD1B header reading and copies of Aod1bIn", "statement": "For a header in the AOD1B format, reading (constructor or read_header) succeeds and every stored value equals the one stated in the header: agency, satellite, sensor, level and pressure type as text, integers, flags and constants, reference epoch and first/last observation in TT, tidal wave; a header that contradicts itself, lacks a value or its end, or has an unknown line is refused without undefined behaviour or termination; copies and assignments preserve every member.", "quantifier": "all headers (any subset and order of lines, any spacing and values)", "why_tests_cant": "The sample files have one spacing, short names, known waves and valid dates; buffer overlap, missing colons, blank values, fixed columns and uninitialised reads only show with other headers.", "anchors": ["src/lib/aod1b/aod1b_read_header.cpp:10-355", "src/lib/aod1b/aod1b.cpp:5-111", "include/aod1b.hpp:85-147"]}
{"id": "C68", "title": "Celestial intermediate pole and origin", "statement": "The two implementations of the CIP coordinates (xycip06a on the combined table, extra::xycip06a on the separate tables) compute the same series of the IERS Conventions, reading only within their tables; s06 computes the series of Table 5.2d minus XY/2; all are unchanged by whole turns of the fundamental arguments, hence continuous in time; within ten centuries X^2+Y^2 < 1, as the rotation formulas need.", "quantifier": "all values of the fourteen arguments and of time, all epochs", "why_tests_cant": "The tables hold 5750 rows; a wrong coefficient, row count or multiplier of a small term stays within the tolerance of tests at a few epochs.", "anchors": ["src/lib/iau/xycip06a_xy.cpp:16-14876", "src/lib/iau/xycip06a.cpp:6-44", "src/lib/iau/xcip06a.cpp:12-6549", "src/lib/iau/ycip06a.cpp:12-1430", "src/lib/iau/s06.cpp:12-370"]}
{"id": "C69", "title": "Stop watch", "statement": "Clock reports the mean duration of the laps between start and stop in the requested unit, orders two watches by their mean, and keeps its name and state under construction, copies and assignment without leaving its buffer.", "quantifier": "all sequences of laps, all units, all names", "why_tests_cant": "Run times are not reproducible, and laps of a fraction of the unit, names of 24 characters and watches without laps do not occur in the programs.", "anchors": ["include/clock.hpp:6-67"]}
{"id": "C70", "title": "Rounding errors of the pole series", "statement": "Evaluated in binary64, in the order of the code and with or without fused multiply-add, the coordinates of the celestial intermediate pole and the locator s differ from the series of the IERS Conventions by less than 0.0002 and 0.00001 microarcseconds for a century around J2000; no operation overflows, and the fundamental arguments are accurate to 1e-11 radians.", "quantifier": "all epochs within a century, all roundings of the operations", "why_tests_cant": "Tests compare with SOFA at a few epochs to a microarcsecond; they neither bound the accumulated error of 1600 rounded terms nor cover other compilers and contraction.", "anchors": ["src/lib/iau/xycip06a_xy.cpp:14779-14876", "src/lib/iau/s06.cpp:274-365", "include/fundarg.hpp:61-323"]}
{"id": "C71", "title": "Rounding errors of the sidereal angles", "statement": "Evaluated in binary64, in the order of the code and with or without fused multiply-add, the Earth rotation angle and the 2006 and 1982 sidereal times differ from their definitions by less than 8e-13, 9e-13 and 1e-12 radians, apart from whole turns, and the locator s-prime by less than 4e-25 radians, for a century around J2000; no operation overflows.", "quantifier": "all epochs within a century, all roundings of the operations", "why_tests_cant": "Tests compare with SOFA at a few epochs to 1e-9; the loss of digits when whole days are multiplied by the rotation rate depends on the epoch and on the roundings.", "anchors": ["src/lib/iau/era00.cpp:3-17", "src/lib/iau/gmst.cpp:4-22", "src/lib/iau/gmst82.cpp:1-25", "include/iau.hpp:70-76"]}
{"id": "C72", "title": "Rounding errors of the tidal variations of the Earth rotation parameters", "statement": "Evaluated in binary64 from the arguments and the sidereal time the library itself computes, in the order of the code and with or without fused multiply-add, the libration and ocean tide corrections differ from the series of the IERS tables by less than 2.5e-8 and 5.6e-7 microarcseconds or microseconds, the zonal tide corrections by less than 1.5e-5 and 1.2e-7 microseconds and 1e-22 rad/s, for a century around J2000; no operation overflows.", "quantifier": "all epochs within a century, all roundings of the operations", "why_tests_cant": "Tests compare with the reference routines at a few epochs to 1e-3 microarcseconds; whether the reductions to one turn, six products per argument and 71 terms lose digits for other epochs or builds cannot be sampled.", "anchors": ["src/lib/eop/libration.cpp:532-554", "src/lib/eop/ocean_tide_variation.cpp:908-929", "src/lib/eop/zonal_tides.cpp:91-110", "include/doodson.hpp:292-296", "include/doodson.hpp:340-349"]}
{"id": "C73", "title": "Rounding errors of the Legendre functions", "statement": "Evaluated in binary64, in the order of the code and with or without fused multiply-add, the normalised associated Legendre functions of degree n differ from their definition by at most 78 n^2 sqrt(2n+1) 2^-53 for every latitude, order and degree to 1024 (5.4e-9 to degree 180); sectorial functions have relative errors below 6.1 m 2^-53 until they underflow; no operation overflows or is invalid.", "quantifier": "all latitudes, all degrees to 1024 and orders, all roundings of the operations", "why_tests_cant": "Tests compare values at a few latitudes with another library to a loose tolerance; the accumulation of errors in a three-term recurrence over a thousand steps depends on the latitude, the order and the roundings.", "anchors": ["src/lib/gravity/forward_column_alf.cpp:5-64"]}
{"id": "C74", "title": "Rounding errors of the Legendre derivatives", "statement": "Evaluated in binary64, the derivatives of the normalised associated Legendre functions with respect to the colatitude have errors of at most 260 n^3 sqrt(2n+1) 2^-53 / |cos(theta)| where |cos(theta)| is at least 2^-57, for all degrees to 1024, and are accurate at every latitude including the poles.", "quantifier": "all latitudes, all degrees to 1024 and orders, all roundings of the operations", "why_tests_cant": "The division by cos(theta) of a difference that cancels is harmless at the latitudes usually tested and loses all digits next to the pole, where no exception is raised.", "anchors": ["src/lib/gravity/forward_column_alf.cpp:16-21", "src/lib/gravity/forward_column_alf.cpp:66-123"]}
{"id": "C75", "title": "Rounding errors of the solid harmonics", "statement": "Evaluated in binary64 in the order of the code, every normalised solid harmonic of degree n that the gravity routine computes differs from its definition by at most 210 (n+1)^2 2^-53 times the root of the sum of the squares of all harmonics of degree n, at distances of half to eight reference radii and for every degree the table allows.", "quantifier": "all positions from half a radius to eight radii, all degrees to 198 and orders, all roundings of the operations", "why_tests_cant": "Tests compare the resulting acceleration with another program at some satellite positions; errors of two coupled recurrences over two hundred steps depend on the position, and a factor that is wrong in its last digits passes.", "anchors": ["src/lib/gravity/sh_cunningham_normalized_gradient.cpp:18-42", "src/lib/gravity/sh_cunningham_normalized_gradient.cpp:112-155"]}
{"id": "C76", "title": "Rounding errors of acceleration and gravity gradient", "statement": "Evaluated in binary64 in the order of the code, each component of the acceleration differs from the derivative of the geopotential by at most 2^-53 GM/Re^2 times the sum over degree n and order m of (217 (n+2)^2 + 1.01 m D) 2 (n+1) sqrt(2n+1) (|C|+|S|) / rho^(n+2), and each component of the gradient from the second derivative by a corresponding sum, rho being the distance in reference radii.", "quantifier": "all positions from half a radius to eight radii, all coefficients, all degrees to 198 and orders (gradient: order = degree), all roundings of the operations", "why_tests_cant": "Tests compare with one reference orbit to a fixed threshold; the error grows with the degree and depends on position and on all coefficients, and the benefit of summing from high order and degree down to the central term shows in the last digits only.", "anchors": ["src/lib/gravity/sh_cunningham_normalized_gradient.cpp:158-379"]}
{"id": "C77", "title": "Rounding errors of EOP interpolation", "statement": "Evaluated in binary64 in the order of the code, every interpolated parameter of EopSeries::interpolate differs from the value of the interpolating polynomial by at most (20c+34) 2^-53 times the sum over the nodes of |y| |Lagrange weight|, UT1-UTC by (20c+35) 2^-53 times that of UT1-TAI plus 2^-53 of itself; status, nodes and cached position are not affected, outside the series the record is returned without rounding.", "quantifier": "all ordered series, epochs inside and outside them, degrees 1 to 9, all values, all roundings of the operations, differences of epochs with error at most c 2^-53 max(difference, g), c <= 1000, g >= 2^-40 days", "why_tests_cant": "The error depends on all ten nodes, on the position between them and on the jump of UT1-UTC at leap seconds; tests compare a few epochs with a fixed threshold.", "anchors": ["src/lib/eop/lagrange_interpolation.cpp:1-128", "src/lib/eop/approx_dut1.cpp:1-49"]}
{"id": "C78", "title": "Rounding errors of third body attraction and relativistic acceleration", "statement": "Evaluated in binary64 in the order of the code, each component of the third body acceleration differs from the difference of the Newtonian attractions by at most 14 2^-53 GM (1/|r-b|^2 + 1/|b|^2), each element of its Jacobian from the tidal tensor by at most 94 2^-53 GM/|r-b|^3, and each component of the relativistic acceleration from IERS Conventions (10.12) by at most 82 2^-53 of the sum of the sizes of the Schwarzschild, Lense-Thirring and de Sitter terms.", "quantifier": "all positions and velocities within the stated ranges (distances from a millimetre, or a metre, to 10^12 metres or more), all masses, all roundings of the operations, sums of three in either order", "why_tests_cant": "Direct and indirect attraction nearly cancel; the error depends on the distances in a way that tests with one orbit do not show.", "anchors": ["src/lib/gravity/point_mass_acceleration.cpp:3-32", "src/lib/relativity/iers12010_relativistic_correction.cpp:5-70"]}
{"id": "C79", "title": "COST-G benchmark readers and file names", "statement": "The readers of the COST-G benchmark files accept a file exactly when every line fits the buffer and no epoch is undefined; they then return, in the order of the lines, one record for every line that starts with as many numbers as a record has, with the numbers at their places and the epoch split into whole days and seconds that add up to the number read; other lines give nothing. They throw exactly for a file that cannot be opened or a line that is too long. basename returns the part behind the last slash.", "quantifier": "all files, all lines, all number scanners; words separated by any number of blanks", "why_tests_cant": "A dropped line leaves no trace in the output; the tests only read well-formed benchmark files.", "anchors": ["costg-benchmark/bin/costg_utils.cpp:9-186", "costg-benchmark/bin/costg_utils.hpp:10-45"]}
{"id": "C80", "title": "Comparison loops of the COST-G check programs", "statement": "A check program ends with code 0 exactly when every orbit record has a reference record of the same epoch at the same place in its file (and, with asserts, rotation and EOP records too) and all calls succeed; it has then printed one line per orbit record, in order, with the reference and the result computed from the records of this epoch. A reference of another epoch ends it with code 1 after the lines ahead of it. The times passed to the library are in the scales it expects.", "quantifier": "all files, all calls, all states, asserts on or off; all GPS epochs, leap second functions and values of dUT1", "why_tests_cant": "The programs are run by hand on one set of files whose records agree.", "anchors": ["costg-benchmark/bin/check_03directTideMoon_icrf.cpp:42-75", "costg-benchmark/bin/check_03directTideSun_icrf.cpp:42-75", "costg-benchmark/bin/check_04solidEarthTide_icrf.cpp:46-148", "costg-benchmark/bin/check_05poleTide_icrf.cpp:57-112", "costg-benchmark/bin/check_06oceanPoleTide_icrf.cpp:58-124", "costg-benchmark/bin/check_07relativistic_icrf.cpp:42-81", "costg-benchmark/bin/check_08aod1b_RL06_icrf.cpp:59-113", "costg-benchmark/bin/check_09aod1b_atmosphericTides_icrf.cpp:44-133", "costg-benchmark/bin/check_09aod1b_atmosphericTides_S1_icrf.cpp:44-131", "costg-benchmark/bin/check_11oceanTide_fes2014b_34major_icrf.cpp:44-127"]}
{"id": "C81", "title": "Rounding errors of the Earth rotation quaternions", "statement": "Whatever the order in which the products of a quaternion multiplication are added, and whatever the roundings, c2i, c2tirs and tirs2i give a quaternion within 63.5, 37 and 25 units of 2^-53 of the exact one; together with xycip2spherical c2i is within 70 units, also where the pole is on the axis. The result rotates a point on the ground to within 0.25 micrometres of where the exact quaternion does.", "quantifier": "all angles (era up to 7, s and sp up to 1, E up to 4, pole coordinates up to 0.2), all roundings, all orders of addition", "why_tests_cant": "The tests compare with SOFA at a few epochs and to looser limits; other compilers and vector units add in other orders.", "anchors": ["include/earth_rotation.hpp:95-105", "include/earth_rotation.hpp:302-308", "include/earth_rotation.hpp:335-340", "include/earth_rotation.hpp:355-359"]}
{"id": "C82", "title": "The rotation computed for an epoch is that of the Conventions", "statement": "For every epoch within a century of J2000 and Earth orientation parameters of ordinary size, the quaternion c2i06a computes, roundings of all steps included, transforms vectors to within 1.7e-12 of their length as the matrix of the IERS Conventions (2010), chapter 5, with the exact X, Y, s, ERA and s' does: 11 micrometres on the ground. The same holds for the two quaternions of the second version applied one after the other, and two builds agree to twice that.", "quantifier": "all epochs of two centuries, all corrections up to 100 arc seconds, all polar motion up to 1000 arc seconds, all roundings", "why_tests_cant": "Needs a bound on the error of series of 2,500 terms, of the sidereal angle, of trigonometric functions and of products at every epoch.", "anchors": ["include/earth_rotation.hpp:95-105", "include/earth_rotation.hpp:302-308", "include/earth_rotation.hpp:335-340", "include/earth_rotation.hpp:355-359", "src/lib/earth_rotation/c2i06a.cpp:4-29", "src/lib/earth_rotation/c2i06apq.cpp:4-33"]}
{"id": "C83", "title": "The closed formula for the rotation and the derivative matrix, with rounding", "statement": "The quaternion of gcrs2itrs_quaternion is within 210 units of 2^-53 of the product of the five rotations, whatever the roundings and the order of additions. For every epoch within a century of J2000, c2i06a_bz transforms vectors to within 1.75e-12 of their length as the Conventions do and to within 3.5e-12 as c2i06a does. Each element of the matrix of c2i06a with a derivative is within 2.6 units of 2^-53 per second of the derivative of the rotation of the Conventions, so that velocities q*v + M*r are right to 1.7e-12 of v and 1.3e-15 per second of r.", "quantifier": "all epochs of two centuries, corrections of the pole up to 100 arc seconds, polar motion up to 1000 arc seconds, length of day excess up to 86 seconds, all roundings and orders of addition", "why_tests_cant": "The tests compare the two versions at some epochs and do not test the derivative to rounding.", "anchors": ["src/lib/earth_rotation/c2i06abz.cpp:5-72", "src/lib/earth_rotation/c2i06a.cpp:31-64", "include/earth_rotation.hpp:136-143", "include/earth_rotation.hpp:231-240", "include/earth_rotation.hpp:368-374"]}
{"id": "C84", "title": "Merging AOD1B files", "statement": "mergeAod1b.py reads the entries of a header exactly, and the dates of observations from exactly the values of their form. Two files without a common time and with the same entries elsewhere, named in either order, are merged into the entries of the earlier one with the last observation of the later one, the counts of records and data sets added, and the data of both in order. Files with a common time stop the program, files with other entries are not merged, and the file written can be read again.", "quantifier": "all files of the format, all names, all orders of two files, all implementations of the date functions that write dates in the form asked for", "why_tests_cant": "There are no tests of the programs in bin.", "anchors": ["bin/mergeAod1b.py:16-36", "bin/mergeAod1b.py:38-84", "bin/mergeAod1b.py:86-90", "bin/mergeAod1b.py:121-137"]}
{"id": "C85", "title": "What a run of the test suite that passes says", "statement": "run_test_suite.py ends without an error exactly when every listed program exists, ends with the code expected and prints the reference output, every other program in the directory of unit tests ends with code zero, and the mock programs fail to compile with the code expected. The text comparison is equality without blanks and newlines; the comparison with precision accepts exactly the outputs whose lines have the same words as the reference, except for numbers that differ by less than the precision of their column. Missing data files are fetched and decompressed.", "quantifier": "all programs, outputs, references, columns, precisions, file systems", "why_tests_cant": "The driver of the tests has no tests; a comparison that accepts too much shows in no run.", "anchors": ["run_test_suite.py:14-29", "run_test_suite.py:31-36", "run_test_suite.py:41-44", "run_test_suite.py:54-80", "run_test_suite.py:82-116", "run_test_suite.py:184-215"]}
{"id": "C86", "title": "The program that downloads AOD1B files", "statement": "getAod1b.py fetches, for every day from the first date up to but without the last one, the compressed non-tidal product of the release asked for from the directory of its year, saves it under its name in the output directory, and decompresses it when asked to, unless a file of the day is there; no other file is created or changed and no file is lost. Without a last date one day is fetched. When the server has all files the run ends without an exception.", "quantifier": "all dates, releases, output directories, files already there, answers of the server", "why_tests_cant": "The program needs a server and has no tests; what it does with failures shows only when they happen.", "anchors": ["bin/getAod1b.py:18-23", "bin/getAod1b.py:25-34", "bin/getAod1b.py:104-131"]}
{"id": "C87", "title": "Rounding errors of the pole tides", "statement": "Whatever the roundings, and in whichever order the matrix product is summed or the scalar applied, the coefficients of the solid Earth and ocean pole tides are within 2.5e-24 and 3.4e-25 of the IERS formulas, the displacements of a site by the solid Earth and ocean pole tides are within 2.7e-15 metres of them in each component, and the factor K of the ocean pole tide with the default constants is within 2.1e-11 of its value, which is between 5300 and 5400. The same holds, with finite results, of the binary64 evaluation with any sine, cosine and conversion of arcseconds that are accurate to one unit in the last place or so.", "quantifier": "all epochs within 128 years of J2000, poles up to 2 arcseconds, latitudes, longitudes up to 7 radians, coefficients of the site up to 1, roundings", "why_tests_cant": "Tests compare a few values with tolerances far larger than rounding errors.", "anchors": ["include/pole_tide.hpp:35-40", "include/pole_tide.hpp:135-143", "include/pole_tide.hpp:248-257", "include/eop.hpp:37-42", "src/lib/pole_tide/pole_tide_deformation.cpp:3-41", "src/lib/pole_tide/ocean_pole_tide_deformation.cpp:4-41"]}
{"id": "C88", "title": "The generator of the tables of the celestial pole", "statement": "script/tables52ab.py turns any tables of lines with fourteen multipliers, for X and Y and powers up to four, into arrays such that the loop of xycip06a over the arrays adds up the Poisson series of the tables; every lunisolar argument comes once, by rising lowest power of time and rising amplitude, and there is one term for each line. The arrays of the library are exactly those it makes out of the tables it holds, and the series X, Y of the specification of the pole are those tables. Tables with falling amplitudes are accepted; a line with a larger amplitude than an earlier line of the same argument and power stops the program, and a second generation in the same process has the terms of both.", "quantifier": "all tables, comparisons of amplitudes, arguments and times", "why_tests_cant": "Nothing in the repository runs the generator or compares its output with the arrays, which have 14700 lines.", "anchors": ["script/tables52ab.py:11-2903", "script/tables52ab.py:2905-3068", "src/lib/iau/xycip06a_xy.cpp:61-14775"]}
{"id": "C89", "title": "Libration against the reference programs of the IERS", "statement": "With fundamental arguments equal up to turns and the sidereal time of 1982, deop_libration gives exactly the polar motion of PMSDNUT2 (diurnal terms), for all arguments; the sums over the full table of the library, which it does not use, are those of PMSDNUT2 with all terms, less its secular part. UT1 differs from UTLIBR by exactly 0.01 sin of the argument of T2, length of day by 0.1 cos of those of N2 and S2, because three amplitudes differ; both differences occur. At dates within a century of J2000, with the arguments of the Conventions and the sidereal time of 2006, the pole coordinates agree to 1e-4 microarcseconds, UT1 to 0.0101 and length of day to 0.2003 microseconds. The first argument of the programs is the sidereal time of 1982 plus half a turn.", "quantifier": "all arguments, dates, values of IBAND", "why_tests_cant": "The tests compare a file of values printed by the Fortran programs with tolerances that hide a different amplitude.", "anchors": ["fortran_impl/UTLIBR_D0.F:1-200", "fortran_impl/PMSDNUT2_D0.F:1-260", "src/lib/eop/libration.cpp:7-554"]}
{"id": "C90", "title": "The example program for the Earth orientation parameters", "statement": "With nine records in order and a usable iterator, eop_interpolation returns 0 after printing one pair of lines for every half minute from the first epoch on and before the last, 23041 over the eight days and one leap second at the end of 2016; no epoch is out of bounds. Every raw line is the interpolation of up to three records on either side of the table from which the zonal tides have been removed, UT1 through UT1-TAI; every corrected line adds libration and ocean tides at the arguments of the epoch and the sidereal time for UT1 interpolated between two records. At a tabulated epoch the pole is that of the table with these variations. UT1 and length of day lack the zonal tides, which are never put back: in the days the program reads, UT1 of the first corrected line is wrong by more than 40 ms. A file that cannot be read gives 1, another number of records the failed assertion.", "quantifier": "all series of nine records, leap second tables, conversions to UT1", "why_tests_cant": "The program prints numbers that no test compares; without the zonal tides they still look like UT1.", "anchors": ["examples/eop_interpolation.cpp:7-88", "src/lib/eop/regularize.cpp:4-23", "include/eop.hpp:240-260"]}
{"id": "C91", "title": "The example program for the pole tides", "statement": "With the coefficients found for up to six sites, a table of records in order that begins no later than the start, and a usable iterator, pole_tide_displacement prints one block for every half minute from the start on and before the earlier of the end asked for and the last record (28800 blocks over its ten days), and returns 0 exactly if it has reached the end, otherwise 1. A block has one line for each site in order, with the name and the coefficients of the same place, the displacement of the solid Earth pole tide (7.26) and the ocean pole tide loading (7.29) for the pole interpolated from up to three records on either side. A table that begins after the start, or a failure of either reader, gives 1 and no line. A reader that succeeds without any record gives undefined behaviour. The loading printed for a site is computed from the coefficients of a cell that does not contain its longitude.", "quantifier": "all tables, coefficient files, sites (at most six), first and last epochs, gravitational constants other than zero", "why_tests_cant": "No test runs the program; the loading is of the right size wherever it is taken from.", "anchors": ["examples/pole_tide_displacement.cpp:13-97", "src/lib/pole_tide/get_desai_ocp_deformation_coeffs.cpp", "include/eop.hpp:240-260"]}
{"id": "C92", "title": "The script that puts C headers into an extern C block", "statement": "If all names ending in .h are files, no backup name is a directory, and both directories are in one file system, one run of c2cpp_header.py ends without an exception, in whatever order the names are listed, with one result: every header holds the opening lines of an extern C block, its own lines without the white space around them, and the closing lines; its text as it was is in the file with .cvers added; nothing else in the directory has changed and no scratch file is left. A second run is not harmless: every header is in two blocks and the backup holds the first of them, so that directories which differ in the text of a header become equal and the original is lost. With the working directory in another file system the first header is renamed and not replaced. A directory with the name of a header ends the run before the names after it.", "quantifier": "all directories, texts and orders of the names", "why_tests_cant": "The script is run once by hand; what a second or an interrupted run leaves behind is seen only when the original is needed.", "anchors": ["script/cppspice/c2cpp_header.py:5-27"]}
{"id": "C93", "title": "The states of a satellite in an Sp3 file", "statement": "xtractSatelliteState of apytest.py, for a file of lines that do not concern the satellite followed by epochs that have a position and a velocity of it, in this order, or none of the two, returns one state for every epoch that has them, in order: the date of the epoch, the position in metres and the velocity in metres per second; the case of letters in the name makes no difference. A velocity before any epoch or position is a NameError, a line with less than three numbers a ValueError. An epoch with a velocity only is given the position of the epoch before. Lines of another satellite whose name begins with the one asked for are taken for its own, as a second state of the epoch.", "quantifier": "all files, names in capitals or not, conversions of dates and numbers", "why_tests_cant": "The script makes the reference values of a test, from one file that has every line; nothing compares them.", "anchors": ["script/apytest.py:30-47"]}
{"id": "C94", "title": "The reference values for coefficients that vary with time", "statement": "The scripts stokes1608-eigen-6s4v2.py and stokes32-eigen-grgs-rl04-mean-field.py give, for every epoch, the sum over the entries in force of the coefficient, the trend times the Julian years since the first date of the entry, and the waves of their periods at these years; zero if no entry is in force. This is the value that parseIcgem gives for a file of version 2 whose records of this degree and order are the entries of the table. Dates with sixty minutes are the full hour; more minutes end the script; a wave in force that has no period is a KeyError. stokes-eigen5c.py gives the value of C(4,0) and S(4,0) that parseIcgem gives for every file of version 1 that has the two lines cited in the script and no others for this degree and order.", "quantifier": "all tables, epochs, calendars and files", "why_tests_cant": "The scripts print values that are compared by hand with those of the reader, at the first of January of thirty years.", "anchors": ["test/script/stokes1608-eigen-6s4v2.py:13-25", "test/script/stokes1608-eigen-6s4v2.py:121-154", "test/script/stokes32-eigen-grgs-rl04-mean-field.py:13-25", "test/script/stokes32-eigen-grgs-rl04-mean-field.py:117-150", "test/script/stokes-eigen5c.py:13-21"]}
{"id": "C95", "title": "The comparison of Earth orientation parameters with those of the benchmark", "statement": "plot_eopdiffs_wrt_costg.py takes from the reference file the lines of more than five characters that are numbers, and from the standard input the lines of whole days, seconds and numbers, whose epoch is the days plus the seconds divided by 86400 in double precision; other lines are ignored. With --diffs, every reference whose epoch is among those of the input gives one row: the epoch, and the differences to the first row of this epoch. The tolerance of 1e-12 days is less than the spacing of doubles from 1948 to 2038, so epochs match if and only if they are the same double.", "quantifier": "all texts, conversions of numbers, and rows whose epochs are doubles between 32768 and 65536", "why_tests_cant": "The script is a tool without tests; the reference file of the benchmark has as many digits as the epochs need.", "anchors": ["bin/plot_eopdiffs_wrt_costg.py:41-52", "bin/plot_eopdiffs_wrt_costg.py:59-73", "bin/plot_eopdiffs_wrt_costg.py:83-103"]}
{"id": "C96", "title": "The input of the script that plots the comparison of accelerations", "statement": "cmdplt.py takes from the output of a check program all lines of eight numbers with one blank between them, in order: seconds of the day, three components of the reference and three of the library; comments, the line that starts with mjd, and lines that are not eight numbers are ignored; the title is the text after #title without blanks around it. With less than two such lines the script ends with code 1. The day is not used, so an output over midnight goes back in time; a line with a second blank between two numbers is dropped.", "quantifier": "all texts and conversions of numbers that refuse an empty text and ignore a newline at the end", "why_tests_cant": "The script is used by hand, with outputs of one day.", "anchors": ["costg-benchmark/bin/cmdplt.py:67-90"]}
{"id": "C97", "title": "The script that plots the output of the example for Earth orientation parameters", "statement": "plot_eop_example.py sorts the lines of a word and five numbers into raw values, those that start with [RAW], and corrected values, all others, in order; any other line is a ValueError. The days are those since the first epoch, and taking them twice makes no difference. The second figure has the epochs more than four days after the first, in order; the argument daysafter is not used.", "quantifier": "all lines, conversions of numbers, and lists of epochs", "why_tests_cant": "The script is an example without tests.", "anchors": ["examples/plot_eop_example.py:61-71", "examples/plot_eop_example.py:104-110"]}
{"id": "C98", "title": "The program that compares the quaternion with SOFA", "statement": "earth_quaternion.cpp prints the matrix of the closed quaternion formula and the one composed by SOFA from polar motion, Earth rotation angle and celestial pole. For a pole with X^2+Y^2 < 1 the two are the same matrix, that of the IERS conventions, and the quaternion is that of the library. The matrix of polar motion that is compared with iauPom00 leaves out the rotation by sp: the two are equal exactly when cos sp = 1.", "quantifier": "all angles and all poles with X^2+Y^2 < 1", "why_tests_cant": "The program prints numbers for one random epoch and checks nothing.", "anchors": ["test/experimental/earth_quaternion.cpp:9-26", "test/experimental/earth_quaternion.cpp:28-54", "test/experimental/earth_quaternion.cpp:57-106"]}
{"id": "C99", "title": "Regularisation round trip in binary64 and its test", "statement": "Removing and adding the zonal tide corrections in binary64, with or without fused operations, changes a value by at most twice the rounding error of the difference. The assertions of eop_regularize.cpp after the round trip hold for all series with values up to one second; those that the values have changed hold if no correction is below 1e-9 microseconds. The values are not always restored bit by bit.", "quantifier": "all series of doubles up to 1 s and corrections up to 1e6 microseconds", "why_tests_cant": "The test uses nine records of one file.", "anchors": ["src/lib/eop/regularize.cpp:4-23", "test/unit_tests/eop_regularize.cpp:25-71"]}
