{"id": "C01", "title": "Axis from extent and n is a uniform tiling", "statement": "Axis(extent=(a,b), n=n) with a != b and n >= 1 has n+1 grid nodes that start at a, end at b and are equally spaced, its n grid points are the midpoints of consecutive nodes, both sequences are strictly monotone in the direction of b-a, extent reports (a,b), and spacing*n equals |b-a|.", "quantifier": "every pair a != b and every n >= 1", "why_tests_cant": "a test fixes a few extents and sizes; the statement is for every n and every real extent, ascending or descending", "anchors": ["postpic/datahandling.py: Axis.__init__, extent, spacing, physical_length"]}
{"id": "C02", "title": "Accepted axes have each grid point inside its cell", "statement": "Whenever Axis(...) accepts explicit grid and grid_node, every grid point lies strictly between its two neighbouring nodes (this is what the constructor's own check and error message promise).", "quantifier": "every accepted pair of grid and grid_node sequences of any length", "why_tests_cant": "tests only exercise a handful of hand-written grids; acceptance must imply containment for all grids", "anchors": ["postpic/datahandling.py: Axis.__init__ (compatibility check)"]}
{"id": "C03", "title": "Nearest grid point lookup is correct", "statement": "For every value the nearest-index lookup used by float indexing returns an index of a grid point whose distance to the value is minimal among all grid points, for ascending and descending, uniform and non-uniform grids of any length; on an exact tie the point with the larger index is returned.", "quantifier": "every strictly monotone grid of any length and every value", "why_tests_cant": "infinitely many grids and values, and ties occur only at exact midpoints", "anchors": ["postpic/datahandling.py: Axis._find_nearest_index"]}
{"id": "C04", "title": "value_to_index inverts the grid on uniform axes", "statement": "On a uniform axis value_to_index maps grid point number i to exactly i, is affine and strictly increasing along the axis, maps the two ends of the extent to -1/2 and n-1/2, and rounding it gives the nearest grid index whenever the value is inside the extent and not half-way between two grid points.", "quantifier": "every uniform axis (both orientations), every value", "why_tests_cant": "a test checks one value on one axis", "anchors": ["postpic/datahandling.py: Axis.value_to_index, _value_to_index_linear, _find_nearest_index"]}
{"id": "C05", "title": "Slicing by coordinates selects exactly the half-open coordinate range", "statement": "ax[a:b] with real a, b on an ascending axis with a <= b and at least one of them inside the extent keeps exactly the grid points g with a <= g < b, in order; on a descending axis with a >= b it keeps exactly the points with b < g <= a; None stands for the corresponding end.", "quantifier": "every monotone axis of any length and every pair of real bounds", "why_tests_cant": "boundary inclusion depends on exact comparisons at each of infinitely many positions", "anchors": ["postpic/datahandling.py: Axis._extent_to_slice, _normalize_slice, __getitem__"]}
{"id": "C06", "title": "Slicing an axis keeps points, cells and data in step", "statement": "ax[i:j] for any integers i, j (python slice semantics, step 1) either raises or yields an axis whose grid is grid[i:j] and whose nodes are exactly the boundaries of the retained cells, so that the sliced axis matches the equally sliced data.", "quantifier": "every axis and every pair of integer or missing slice bounds, including negative and out of range ones", "why_tests_cant": "the node slice is derived by ad-hoc index arithmetic; only a proof covers all sign combinations", "anchors": ["postpic/datahandling.py: Axis.__getitem__"]}
{"id": "C07", "title": "Reversing an axis is an involution", "statement": "ax.reversed() has the same points, nodes in opposite order, swaps the extent, keeps name, unit and length, and reversing twice gives back an equal axis; accepted axes are again accepted when reversed.", "quantifier": "every axis", "why_tests_cant": "all lengths and orientations", "anchors": ["postpic/datahandling.py: Axis.reversed, isreversed"]}
{"id": "C08", "title": "Halving the resolution averages neighbouring cells", "statement": "half_resolution along one axis yields floor(n/2) cells; cell i of the result carries the mean of cells 2i and 2i+1 of the input, its nodes are nodes 2i and 2i+2 of the input and its grid point is the mean of the two merged grid points; for even n the extent and the sum times spacing are preserved.", "quantifier": "every field of any shape and dimension, every axis of it", "why_tests_cant": "holds for all sizes, even and odd", "anchors": ["postpic/datahandling.py: Axis.half_resolution, Field.half_resolution"]}
{"id": "C09", "title": "Fields keep matrix and axes consistent through every operation history", "statement": "Starting from any constructed Field, after any sequence of successful indexing, transposing, swapping, flipping, rotating, squeezing, atleast_nd, reducing, halving, padding and arithmetic with scalars, the field has exactly one axis per matrix dimension and the length of every axis equals the matrix extent along that dimension; the per-axis lists axes_transform_state and transformed_axes_origins have the same length.", "quantifier": "every finite sequence of operations with arbitrary arguments, from every initial field", "why_tests_cant": "the number of operation histories is unbounded", "anchors": ["postpic/datahandling.py: Field.__init__, setaxisobj, transpose, squeeze, __getitem__, flip, rot90, half_resolution, pad, _reducing_numpy_method"]}
{"id": "C10", "title": "Transposition moves every per-axis attribute with its dimension", "statement": "f.transpose(p) relabels dimensions consistently: value, axis, axes_transform_state entry and transformed_axes_origins entry of new dimension i are those of old dimension p[i]; transposing with p and then with its inverse restores the field.", "quantifier": "every field of any dimension and every permutation", "why_tests_cant": "the permutations of arbitrarily many axes cannot be enumerated", "anchors": ["postpic/datahandling.py: Field.transpose, T, swapaxes"]}
{"id": "C11", "title": "Geometric rearrangements never detach a value from its coordinates", "statement": "For flip, swapaxes, transpose and rot90 the set of pairs (coordinate of a sample along each named axis, value of the sample) is unchanged (up to the relabelling of axes); flip twice, swapaxes twice and rot90 four times are the identity, rot90(k) depends only on k mod 4 and rot90(k) followed by rot90(l) is rot90(k+l).", "quantifier": "every field of any shape, every pair of axes, every integer k", "why_tests_cant": "unbounded shapes and dimensions", "anchors": ["postpic/datahandling.py: Field.flip, rot90, swapaxes, transpose"]}
{"id": "C12", "title": "Reductions drop exactly the reduced axes", "statement": "sum, mean, min, max etc. with axis=None, an int (possibly negative) or a tuple of ints return a field whose axes are precisely the axes of the dimensions that were not reduced, in the original order (keepdims=True keeps a length-one axis with the same extent), so that result axes always describe result data.", "quantifier": "every field dimension and every axis argument accepted by numpy", "why_tests_cant": "tuples mixing negative and positive indices in any order are unbounded in number", "anchors": ["postpic/datahandling.py: Field._reducing_numpy_method"]}
{"id": "C13", "title": "Broadcasting arithmetic picks matching axes or fails", "statement": "For binary operations on two fields the result axes correspond dimension by dimension (aligned from the last one) to the broadcast data shape; the operation is rejected exactly when some aligned pair of dimensions has different lengths neither of which is one; with equal shapes the left operand's axes are used; swapping the operands gives the same result shape.", "quantifier": "every pair of fields with arbitrary dimensions", "why_tests_cant": "unbounded dimensions and lengths", "anchors": ["postpic/datahandling.py: Field._get_axes_ats_tao_binary_ufunc_broadcasting, __array_ufunc__"]}
{"id": "C14", "title": "Both integration methods compute the same Riemann sum", "statement": "For a field with uniform axes the 'constant' and 'fast' integration methods give the same field for every subset of axes: the sum over the integrated dimensions times the product of their cell widths, with the remaining axes unchanged in order; integrating is linear in the data and integrating axes one after another equals integrating them at once.", "quantifier": "every field of any dimension and every set of axes in any order", "why_tests_cant": "the fast method pops axes while renumbering the rest; correctness for every order needs induction", "anchors": ["postpic/datahandling.py: Field._integrate_constant, _integrate_fast, integrate"]}
{"id": "C15", "title": "Padding keeps data at its coordinates", "statement": "f.pad(...) on an axis with ascending uniform grid adds the requested numbers of cells before and after, the spacing is unchanged, and every old sample is found unchanged at its old coordinate in the padded field.", "quantifier": "every field, every pair of pad widths given as cell counts or as lengths", "why_tests_cant": "holds for all widths and positions", "anchors": ["postpic/datahandling.py: Field.pad"]}
{"id": "C16", "title": "fft_autopad reaches the requested size", "statement": "fft_autopad pads along the requested axes to exactly the size given by the padding function, splitting the added cells so that the front gets floor(d/2), and all other axes are untouched.", "quantifier": "every field, every padding function returning a size not below the input size", "why_tests_cant": "all sizes", "anchors": ["postpic/datahandling.py: Field.fft_autopad", "postpic/helper.py: FFTW_Pad, fft_padsize_power2"]}
{"id": "C17", "title": "autoreduce terminates with every axis short enough", "statement": "autoreduce(maxlen) with maxlen >= 1 terminates for every field and returns a field all of whose axes have length <= maxlen, touching no axis that was already short enough, each result cell being the mean of a block of 2^k input cells.", "quantifier": "every field and every maxlen >= 1", "why_tests_cant": "termination and the bound are for all sizes", "anchors": ["postpic/datahandling.py: Field.autoreduce, half_resolution"]}
{"id": "C18", "title": "autocutout keeps the whole significant region", "statement": "autocutout removes only border slices: the result is the field restricted to an index interval per axis, the interval contains every index whose projected value exceeds the upper fraction of the maximum, and it never reaches outside the array.", "quantifier": "every projection profile and every pair of fractions", "why_tests_cant": "interval arithmetic with clipping has many corner cases per length", "anchors": ["postpic/datahandling.py: Field.autocutout", "postpic/helper.py: max_frac_bounds"]}
{"id": "C19", "title": "squeeze undoes atleast_nd", "statement": "f.atleast_nd(n) appends length-one axes until at least n dimensions are present without changing any value; squeezing a field removes exactly the length-one dimensions with their axes and leaves values in place, so squeezing the result of atleast_nd on a field without length-one axes gives the field back.", "quantifier": "every field and every n", "why_tests_cant": "all shapes", "anchors": ["postpic/datahandling.py: Field.squeeze, atleast_nd"]}
{"id": "C20", "title": "The Fourier transform of a field is inverted by transforming back", "statement": "fft followed by fft along the same axis restores every data value and the axis grid, for any number of samples, any origin of the grid and any sequence of values.", "quantifier": "every length n >= 1, every uniform axis, every complex data vector", "why_tests_cant": "a numerical test samples a few lengths; the identity holds for all n", "anchors": ["postpic/datahandling.py: Field.fft, _conjugate_grid"]}
{"id": "C21", "title": "Domain bookkeeping of fft is a toggle", "statement": "fft along axes flips axes_transform_state exactly on those axes, remembers the spatial origin and restores it on the way back; ensure_spatial_domain and ensure_frequency_domain are idempotent and reach the requested domain on every axis from every mixed state; name and unit of the axis come back after a round trip.", "quantifier": "every field with every combination of transform states and every set of axes", "why_tests_cant": "2^d states per dimension d and arbitrary names", "anchors": ["postpic/datahandling.py: Field.fft, ensure_transform_state, ensure_spatial_domain, ensure_frequency_domain"]}
{"id": "C22", "title": "The field Fourier transform conserves energy", "statement": "The integral of |f|^2 over space equals the integral of |F|^2 over the conjugate axis for every data vector (Parseval), i.e. the normalisation used by fft is unitary.", "quantifier": "every length and every complex data vector", "why_tests_cant": "identity over all vectors", "anchors": ["postpic/datahandling.py: Field.fft"]}
{"id": "C23", "title": "Shifting the grid in Fourier space is exact and additive", "statement": "shift_grid_by with Fourier interpolation shifts by an integer number of cells exactly (a cyclic roll of the data), shifting by s and then by t equals shifting by s+t, and shifting by zero changes nothing.", "quantifier": "every length, every data vector and all shifts", "why_tests_cant": "identity over all vectors and shifts", "anchors": ["postpic/datahandling.py: Field.shift_grid_by, _shift_grid_by_fourier", "postpic/helper.py: _linear_phase"]}
{"id": "C24", "title": "Conjugate grids are mutually conjugate", "statement": "The frequency grid computed for a uniform axis with n points and spacing dx has n points, spacing 2*pi/(n*dx), contains zero, and the conjugate of the conjugate grid with restored origin is the original grid.", "quantifier": "every n >= 2, every spacing and origin", "why_tests_cant": "all n, even and odd", "anchors": ["postpic/datahandling.py: Field._conjugate_grid, fft"]}
{"id": "C25", "title": "Particle deposition never writes outside the histogram", "statement": "For every particle shape order (0 to 3), every dimension (1, 2, 3), every number of bins and every particle position, including positions far outside the range, all array accesses of the deposition loops are inside the allocated (ghost-cell padded) arrays, although bounds checking is switched off.", "quantifier": "all positions, bin counts, orders and dimensions", "why_tests_cant": "a memory error appears only for particular positions; tests cannot cover all reals", "anchors": ["postpic/particles/_particlestogrid.pyx: histogram, histogram2d, histogram3d"]}
{"id": "C26", "title": "Deposition conserves weight", "statement": "The sum of all cells of the padded histogram equals the sum of the weights of the particles that pass the range test, for every order, so that for particles whose whole shape is inside the range the returned histogram contains exactly their weight.", "quantifier": "every particle list and weight list, orders 0-3, 1-3 dimensions", "why_tests_cant": "identity over arbitrary particle sets", "anchors": ["postpic/particles/_particlestogrid.pyx"]}
{"id": "C27", "title": "A particle only contributes non-negative weight near itself", "statement": "Every particle with non-negative weight contributes non-negative amounts only to cells whose distance to the particle is at most half the shape width, and particles outside the range by more than the shape width contribute nothing.", "quantifier": "all positions and bins, orders 0-3", "why_tests_cant": "rounding toward zero matters only in thin bands of positions", "anchors": ["postpic/particles/_particlestogrid.pyx"]}
{"id": "C28", "title": "Nearest-grid-point histogram counts bins like numpy", "statement": "With shape=0 the histogram cell i contains the sum of the weights of the particles with edge_i <= x < edge_{i+1}, the last cell including its right edge, as documented (identical to numpy.histogram).", "quantifier": "every particle list, range and number of bins", "why_tests_cant": "differences occur only for particles exactly on the outer edges", "anchors": ["postpic/particles/_particlestogrid.pyx: histogram", "postpic/particles/_routines.py: histogramdd"]}
{"id": "C29", "title": "Histograms are additive and order independent", "statement": "Depositing the concatenation of two particle lists gives the sum of the two histograms; permuting particles together with their weights does not change the histogram; scaling all weights scales the histogram.", "quantifier": "all particle lists", "why_tests_cant": "unbounded lists", "anchors": ["postpic/particles/_particlestogrid.pyx"]}
{"id": "C30", "title": "2D deposition treats both coordinates alike", "statement": "Swapping the two coordinates (positions, ranges and bins) transposes the two dimensional histogram.", "quantifier": "all particle lists and ranges, orders 0-3", "why_tests_cant": "asymmetries show only for particles just outside one of the edges", "anchors": ["postpic/particles/_particlestogrid.pyx: histogram2d"]}
{"id": "C31", "title": "Histogram range and bins arguments mean what they say", "statement": "histogramdd uses the requested range on each axis where one is given and the data minimum/maximum where None is given, and the requested bins per axis.", "quantifier": "every data set and every combination of given and missing bounds", "why_tests_cant": "combinatorial in arguments and data", "anchors": ["postpic/particles/_routines.py: histogramdd"]}
{"id": "C32", "title": "Species names are decoded consistently", "statement": "identifyspecies is total on names built from prefixes, an optional element, charge and Plus/electron suffixes, never mixes up prefixes with the base name, and assigns the charge and mass that the name spells out.", "quantifier": "every name of the documented grammar", "why_tests_cant": "infinitely many names", "anchors": ["postpic/particles/_routines.py: SpeciesIdentifier"]}
{"id": "C33", "title": "Filters compose like logical conjunction", "statement": "Applying filter/compress with a boolean condition and then another one selects, in unchanged order, exactly the particles satisfying both, for any number of successive filters; the object that was filtered is not affected.", "quantifier": "every species, every finite sequence of conditions", "why_tests_cant": "unbounded sequences", "anchors": ["postpic/particles/particles.py: _SingleSpecies.compress, _compress_bool, MultiSpecies.filter, compress"]}
{"id": "C34", "title": "Selecting by ids is set membership", "statement": "compress(ids) keeps exactly the particles whose id occurs in ids, independent of order and repetition in ids, keeping particle order, and does not modify its argument.", "quantifier": "every id list and every particle list", "why_tests_cant": "unbounded lists; an aliasing effect is invisible in the result", "anchors": ["postpic/particles/particles.py: _SingleSpecies._compress_int"]}
{"id": "C35", "title": "Inverting a selection is complementation", "statement": "~s selects exactly the particles of the dump that s does not select: len(s)+len(~s) is the total number, ~~s selects the same particles as s, uncompress restores all particles; all after any sequence of filters.", "quantifier": "every history of compress, invert and uncompress", "why_tests_cant": "unbounded histories", "anchors": ["postpic/particles/particles.py: _SingleSpecies.__invert__, uncompress, MultiSpecies.__invert__"]}
{"id": "C36", "title": "Adding species concatenates", "statement": "For MultiSpecies, len(a+b) = len(a)+len(b), evaluating any quantity on a+b gives the concatenation of the evaluations, per-species constants are repeated per particle, and a and b remain unchanged; a += b behaves the same for every b.", "quantifier": "every pair of multi species collections", "why_tests_cant": "unbounded collections, aliasing of operands", "anchors": ["postpic/particles/particles.py: MultiSpecies.add, __add__, __iadd__, __call_sp, __len__"]}
{"id": "C37", "title": "A boolean condition is distributed over the species without mixing", "statement": "compress with a boolean array over a MultiSpecies applies to each species exactly the part of the array belonging to it; an array of wrong length raises ValueError.", "quantifier": "any number of species of any sizes and every condition array", "why_tests_cant": "offset bookkeeping over unboundedly many species", "anchors": ["postpic/particles/particles.py: MultiSpecies.compress"]}
{"id": "C38", "title": "Caching of raw data is transparent", "statement": "Evaluating any raw quantity after any history of accesses, compressions and uncompressions yields the raw dump data of that quantity restricted to the currently selected particles.", "quantifier": "every interleaving of reads and filter operations", "why_tests_cant": "cache staleness depends on history", "anchors": ["postpic/particles/particles.py: _SingleSpecies._readatomic, _compress_bool, uncompress"]}
{"id": "C39", "title": "Particle histories follow the particle", "statement": "For a ParticleHistory with a list of ids, the i-th returned trajectory contains exactly the data of the particle with the i-th requested id in every dump where it occurs, in dump order.", "quantifier": "every id list and every sequence of dumps", "why_tests_cant": "depends on mutation of a shared array during the run", "anchors": ["postpic/particles/particles.py: ParticleHistory"]}
{"id": "C40", "title": "Weighted statistics are bounded and monotone", "statement": "mean lies between minimum and maximum of the values for positive weights, var is non-negative and translation invariant, quantile(q) is one of the values, is monotone in q, and at least a fraction q of the weight is at or below it.", "quantifier": "every non-empty list of values and positive weights", "why_tests_cant": "all lists", "anchors": ["postpic/particles/particles.py: MultiSpecies.mean, var, quantile"]}
{"id": "C41", "title": "Relativistic particle scalars are mutually consistent", "statement": "For every particle with positive mass, gamma >= 1, gamma^2 = 1 + p^2/(m c)^2, 0 <= beta < 1, gamma = 1/sqrt(1-beta^2), v = beta c, vx^2+vy^2+vz^2 = v^2 and (Ekin + m c^2)^2 = (p c)^2 + (m c^2)^2.", "quantifier": "all momenta and masses", "why_tests_cant": "real-valued identities over all momenta", "anchors": ["postpic/particles/scalarproperties.py: _defaultscalars"]}
{"id": "C42", "title": "The registry of particle scalars behaves like a dictionary keyed by symbol", "statement": "After any sequence of add and remove, looking up a symbol returns the property last added under it, adding a known symbol raises KeyError and changes nothing, a missing expression is resolved by its expression text or becomes an anonymous property.", "quantifier": "every sequence of operations", "why_tests_cant": "unbounded histories", "anchors": ["postpic/particles/scalarproperties.py: ScalarPropertyContext"]}
{"id": "C43", "title": "Density fields integrate to the number of particles", "statement": "The field created by createField carries a density: the sum over all cells times the cell volume equals the total weight deposited.", "quantifier": "every particle set, 1-3 dimensions, all bins and ranges", "why_tests_cant": "identity over all inputs", "anchors": ["postpic/particles/particles.py: MultiSpecies._createHistgram, createField"]}
{"id": "C44", "title": "The FFT pad size is the smallest admissible size and independent of call history", "statement": "FFTW_Pad()(n) returns the smallest size >= n whose prime factors are allowed (2,3,5,7 and at most one of 11,13), whatever sizes were asked for before, with any number of calls, and never fails.", "quantifier": "every n and every history of calls", "why_tests_cant": "history-dependent lazily extended table; minimality over all n", "anchors": ["postpic/helper.py: FFTW_Pad"]}
{"id": "C45", "title": "Power-of-two padding", "statement": "fft_padsize_power2(n) is a power of two that is at least n and smaller than 2n for n not a power of two; the smallest such power.", "quantifier": "every n >= 1", "why_tests_cant": "all n", "anchors": ["postpic/helper.py: fft_padsize_power2"]}
{"id": "C46", "title": "Parallel interpolation equals serial interpolation under every schedule", "statement": "map_coordinates_parallel writes every output element exactly once, whatever the number of chunks and the order in which the workers run, and the cropped input of each chunk contains all samples needed for in-range coordinates, so the result equals the single call on the full input.", "quantifier": "every chunk count, output shape and every interleaving of workers", "why_tests_cant": "schedules cannot be enumerated by tests", "anchors": ["postpic/helper.py: map_coordinates_parallel"]}
{"id": "C47", "title": "Propagating in k-space is a group action preserving energy", "statement": "kspace_propagate(dt) multiplies every mode by a unit-modulus phase: two steps dt equal one step 2dt, step dt and step -dt cancel, and the sum of |value|^2 is constant for every number of steps; earlier yielded fields are not modified by later steps; the moving window origin advances linearly.", "quantifier": "every field, step size, number of steps and window vector", "why_tests_cant": "unbounded number of steps", "anchors": ["postpic/helper.py: _kspace_propagate_generator, kspace_propagate, omega_free, omega_yee_factory"]}
{"id": "C48", "title": "Reconstructing a propagating wave does not modify its input fields", "statement": "kspace(component, fields) leaves all fields passed in by the caller unchanged, whether they are in the spatial or the frequency domain.", "quantifier": "every input state of the fields", "why_tests_cant": "aliasing depends on the domain state of the argument", "anchors": ["postpic/helper.py: kspace"]}
{"id": "C49", "title": "Polar and cartesian coordinates are mutual inverses", "statement": "polar2linear(linear2polar(x,y)) = (x,y) for all x, y; linear2polar yields r >= 0; and linear2polar(polar2linear(theta,r)) = (theta,r) for r > 0 and -pi < theta <= pi.", "quantifier": "all real coordinates", "why_tests_cant": "all reals including axes and quadrant boundaries", "anchors": ["postpic/helper.py: polar2linear, linear2polar"]}
{"id": "C50", "title": "Monotonicity and fraction bounds helpers are exact", "statement": "monotonicity(seq) reports 1 iff strictly increasing, -1 iff strictly decreasing and 0 otherwise; max_frac_bounds returns the first and one past the last index whose value exceeds the fraction of the maximum.", "quantifier": "all sequences", "why_tests_cant": "all lengths", "anchors": ["postpic/helper.py: monotonicity, max_frac_bounds"]}
{"id": "C51", "title": "Derived fields do not share mutable state with their source", "statement": "Modifying data or per-axis lists of the result of copy(), replace_data(), arithmetic or a unary function never changes the source field and vice versa.", "quantifier": "every operation and every later in-place modification of either field", "why_tests_cant": "aliasing is only visible after specific later mutations", "anchors": ["postpic/datahandling.py: Field.copy, replace_data, __array_ufunc__, _get_axes_ats_tao_binary_ufunc_broadcasting"]}
{"id": "C52", "title": "npz export and import is a lossless round trip", "statement": "load_field(export(f)) has the same data, axis grids and nodes, axis names and units, field name and unit, transform states and origins as f.", "quantifier": "every field of any dimension, any axis lengths and names", "why_tests_cant": "lengths and names are unbounded; tests use one field with one-letter names", "anchors": ["postpic/io/npy.py: _export_field_npy, _import_field_npy"]}
{"id": "C53", "title": "csv export and import is a round trip of the data", "statement": "Reading back with load_field a csv file written by export yields the same matrix.", "quantifier": "every two dimensional field", "why_tests_cant": "all matrices", "anchors": ["postpic/io/csv.py"]}
{"id": "C54", "title": "The VTK file lists points in the order the format requires", "statement": "For scalar and vector export the value written at position ncomp*(i+nx*(j+ny*k))+c is component c of grid point (i,j,k), the number of points announced equals the number of values written divided by the number of components, and the announced origin and spacing locate every point at its coordinate.", "quantifier": "every 2D/3D shape and any number of components up to 4", "why_tests_cant": "all shapes", "anchors": ["postpic/io/vtk.py: ArrayData.transform_data, StructuredPoints, PointData"]}
{"id": "C55", "title": "Images are imported with x to the right and y upwards", "statement": "Pixel in row r (from the top) and column c of an image with H rows appears in the field at x=c, y=H-1-r, for grey and multi-channel images.", "quantifier": "every image size", "why_tests_cant": "all sizes", "anchors": ["postpic/io/image.py: _import_field_image"]}
{"id": "C56", "title": "Reader grids are self-consistent", "statement": "For every dumpreader providing gridoffset, gridspacing and gridpoints: gridnode has gridpoints+1 equally spaced nodes starting at the offset with the given spacing, grid holds the cell centres, simextent and simgridspacing agree with them, and the axis built from it has exactly that grid.", "quantifier": "every offset, spacing and number of points", "why_tests_cant": "all values", "anchors": ["postpic/datareader/datareader.py: gridnode, grid, simextent, simgridspacing", "postpic/_field_calc.py: getaxisobj"]}
{"id": "C57", "title": "A simulation reader indexes like a python sequence", "statement": "sim[i] returns dump i for 0 <= i < len, dump len+i for -len <= i < 0, raises IndexError for all other integers; sim[a:b:c] is the list of the dumps selected by the slice.", "quantifier": "every length, integer and slice", "why_tests_cant": "negative out of range integers are unbounded", "anchors": ["postpic/datareader/datareader.py: Simulationreader_ifc.__getitem__"]}
{"id": "C58", "title": "Both azimuthal mode expansions agree", "statement": "For fbpic data the FFT based expansion equals the direct cosine/sine sum at the angles 2*pi*k/Ntheta for every number of modes and every requested Ntheta not smaller than the number of modes.", "quantifier": "every number of modes, radial and longitudinal points and all data", "why_tests_cant": "identity over all data and sizes", "anchors": ["postpic/datareader/openPMDh5.py: FbpicReader.modeexpansion, _modeexpansion_fft, _modeexpansion_naiv"]}
{"id": "C59", "title": "Expanding azimuthal modes at several angles is the expansion at each angle", "statement": "For Smilei data the expansion at a list of angles returns, for every angle, the field evaluated at that angle.", "quantifier": "every list of angles and all mode data", "why_tests_cant": "depends on accumulation across the list", "anchors": ["postpic/datareader/smileih5.py: SmileiReader._modeexpansion_naiv"]}
{"id": "C60", "title": "Energy densities are non-negative and add up", "statement": "energydensityEM equals energydensityE plus energydensityM at every grid point, all three are non-negative and vanish only where the fields vanish.", "quantifier": "all field values", "why_tests_cant": "all reals", "anchors": ["postpic/_field_calc.py: energydensityE, energydensityM, energydensityEM"]}
{"id": "C61", "title": "divE is the divergence on the physical grid", "statement": "divE of a field that depends linearly on the coordinates equals the exact divergence, independent of the resolution of the grid (unit V/m^2).", "quantifier": "all grids and linear fields", "why_tests_cant": "the grid spacing enters as a factor; any test at spacing one passes", "anchors": ["postpic/_field_calc.py: divE, _divE1d, _divE2d, _divE3d"]}
{"id": "C62", "title": "Records are read in SI units with offsets applied once", "statement": "openPMD records are returned as stored value times unitSI for array and constant records; particle positions are position plus positionOffset; gridoffset and gridspacing are the stored values times gridUnitSI.", "quantifier": "all stored values, array lengths and units", "why_tests_cant": "all values", "anchors": ["postpic/datareader/openPMDh5.py: data, getSpecies, gridoffset, gridspacing"]}
{"id": "C63", "title": "Choosing a code is atomic and the last choice wins", "statement": "After any sequence of chooseCode calls readDump and readSim use the reader pair of the last recognised code, names are case insensitive, and an unrecognised or unsupported code raises and leaves the previous choice in place.", "quantifier": "every sequence of calls", "why_tests_cant": "unbounded histories", "anchors": ["postpic/datareader/__init__.py: chooseCode, setdumpreadercls, setsimreadercls, readDump, readSim"]}
{"id": "C64", "title": "The compatibility moveaxis is numpy's moveaxis", "statement": "np_moveaxis(a, source, destination) returns a transposition in which source axis s_i ends at position d_i and all other axes keep their relative order.", "quantifier": "every number of dimensions and all source/destination tuples without repetition", "why_tests_cant": "unbounded dimensions", "anchors": ["postpic/_compat/functions.py: np_moveaxis"]}
{"id": "C65", "title": "Derivatives and integrals by index are consistent", "statement": "The staggered derivative of a field along an axis followed by integration telescopes: the integral of the derivative is the difference of the end values, and the derivative of a linear function is its slope everywhere.", "quantifier": "every length, spacing and data", "why_tests_cant": "identity for all data", "anchors": ["postpic/datahandling.py: Field._derivative_stagger, derivative"]}
{"id": "C66", "title": "Fractional indices on non-uniform axes are exact at points and cell boundaries", "statement": "On every axis the interpolating value_to_index maps grid point i to i and cell boundary i to i-1/2, is strictly monotone along the axis inside the extent, and values outside are mapped like the nearest end of the extent; rounding gives the nearest grid index.", "quantifier": "every proper axis of any length, all values", "why_tests_cant": "infinitely many grids and values", "anchors": ["postpic/datahandling.py: Axis._value_to_index_nonlinear, value_to_index"]}
{"id": "C67", "title": "An axis given by its grid points alone has its cell boundaries half-way", "statement": "Axis(grid=g) for a strictly monotone g accepts the grid, keeps the points, and puts inner cell boundaries half-way between neighbouring points and the outer ones symmetric to the first inner ones; giving the matching extent in addition does not change this.", "quantifier": "every strictly monotone grid", "why_tests_cant": "all lengths and spacings", "anchors": ["postpic/datahandling.py: Axis.__init__"]}
{"id": "C68", "title": "A data set with a single value still gives a histogram", "statement": "When all values are equal (or the requested range has no width) the histogram is computed on a tiny interval around that value and counts all particles, whatever the sign of the value.", "quantifier": "every value and particle count", "why_tests_cant": "the sign and magnitude of the value are unbounded", "anchors": ["postpic/particles/_particlestogrid.pyx: histogram, histogram2d, histogram3d"]}
{"id": "C69", "title": "createField of an empty selection is an empty histogram", "statement": "createField on a particle collection without particles returns zeros on the requested ranges and bins for 1, 2 and 3 dimensions.", "quantifier": "every bins argument and range", "why_tests_cant": "all bin counts and dimensions", "anchors": ["postpic/particles/particles.py: MultiSpecies._createHistgram"]}
{"id": "C70", "title": "Indexing a field keeps every sample at its coordinates", "statement": "f[keys] with one key per axis indexes every axis by its key: dimensions indexed by a number are dropped, the others get the indexed axis, and every sample of the result has the value that f has at the same coordinates.", "quantifier": "every field, every tuple of keys (numbers or slices, by position or by index) that the axes accept", "why_tests_cant": "data and axes are indexed separately and must agree for all keys and shapes", "anchors": ["postpic/datahandling.py: Field.__getitem__, Field._normalize_slices, Axis.__getitem__"]}
{"id": "C71", "title": "A change of coordinates along one axis preserves integrals", "statement": "map_axis_grid(axis, t) replaces the grid and the nodes of one axis by their images under t, leaves every other axis and the shape unchanged, divides every sample by the jacobian at its grid point (or leaves it, if not asked to preserve the integral), and if the jacobian is the stretch of each cell every integral over that axis is unchanged.", "quantifier": "every field, axis and strictly monotone transformation", "why_tests_cant": "holds for all transformations and shapes; a test picks one", "anchors": ["postpic/datahandling.py: Field.map_axis_grid"]}
{"id": "C72", "title": "Outer operations of fields", "statement": "np.add.outer(f, g) and the like return the field on the axes of f followed by those of g whose sample at (i, j) is op(f[i], g[j]), with name and unit of f.", "quantifier": "every binary function and every pair of fields", "why_tests_cant": "all shapes and dimensions", "anchors": ["postpic/datahandling.py: Field.__array_ufunc__"]}
{"id": "C73", "title": "Names in particle expressions are resolved by substitution", "statement": "For every registry and every expression, the value of ms(expr) is the value numexpr gives when each variable is replaced by its meaning: the raw particle property (or its synonym), else the registered property evaluated the same way, else scipy.constants, else numpy; KeyError exactly when some name has no meaning; variables already loaded never change the result.", "quantifier": "every registry, expression and assignment of raw values", "why_tests_cant": "sharing of already loaded variables across nested properties has unbounded nesting depth; tests check a few expressions", "anchors": ["postpic/particles/particles.py:_SingleSpecies._eval_single_sp", "postpic/particles/scalarproperties.py:ScalarPropertyContext.__call__"]}
{"id": "C74", "title": "The numerical Jacobian of a coordinate transform approximates the derivative", "statement": "approx_1d_jacobian_det(transform)(x) is the absolute value of the derivative exactly for every quadratic transform, tends to it for every differentiable transform as the step shrinks, and is defined for every x.", "quantifier": "all transforms, all points", "why_tests_cant": "a statement about all differentiable functions and all points", "anchors": ["postpic/helper.py:approx_1d_jacobian_det"]}
{"id": "C75", "title": "The Fourier transform of a field is the plane-wave sum at the physical grid points", "statement": "fft gives, at every point of the frequency grid, the sum over the points of the spatial grid of the data times exp(-ikx) dx / sqrt(2 pi) for each transformed axis (exp(+ikx) dk / sqrt(2 pi) on the way back, signs exchanged for the temporal convention), with k and x the coordinates of the two axes wherever their origins lie; axes that are not transformed keep their data order and grid; axes may be counted from the end as elsewhere in the class.", "quantifier": "every field, every set of axes, every number of points, spacing and origin, both conventions", "why_tests_cant": "all lengths, origins and data; a test compares a few transforms", "anchors": ["postpic/datahandling.py: Field.fft, Field._conjugate_grid", "postpic/helper.py: linear_phase"]}
{"id": "C76", "title": "A .visit file lists exactly the dumps of a run in order", "statement": "Opening an EPOCH .visit file yields one dump per line of the file, in the order of the lines, relative to the directory of the file, whatever the line ends (LF or CRLF) and whether or not the last line is ended.", "quantifier": "all directories and all lists of names without line ends", "why_tests_cant": "a test uses one file; line ends, missing final newline and arbitrary names form an unbounded family", "anchors": ["postpic/datareader/epochsdf.py:Visitreader"]}
{"id": "C77", "title": "A file series is ordered by dump number independently of the directory listing", "statement": "The dumps of a series found by a file pattern come in the same order for every order in which the file system lists them, contain every listed file exactly once, and for zero-padded dump numbers that order is the numeric one.", "quantifier": "all listings (permutations) and all sets of numbers below 10^width, any width, prefix and suffix", "why_tests_cant": "a test sees one listing on one file system", "anchors": ["postpic/datareader/openPMDh5.py:FileSeries"]}
{"id": "C78", "title": "Equality of dumps is an equivalence relation", "statement": "dump1 == dump2 is reflexive, symmetric and transitive; names of the same file are equal dumps whatever their spelling, and a dump read from a file never equals one that is not.", "quantifier": "all identifiers and all file systems in which samefile is an equivalence of files", "why_tests_cant": "needs all triples of identifiers and all file system states", "anchors": ["postpic/datareader/datareader.py:Dumpreader_ifc.__eq__"]}
{"id": "C79", "title": "Every azimuthal mode of a Smilei dump enters the expansion", "statement": "The set of modes used to expand a field of a Smilei dump in azimuthal modes is 0..M where M is the highest mode number found in the file.", "quantifier": "every set of records and any number of modes", "why_tests_cant": "tests use files with two or three modes", "anchors": ["postpic/datareader/smileih5.py: SmileiReader._listAMmodes"]}
{"id": "C80", "title": "Counts of png files are those of the camera", "statement": "For a png file whose samples are camera counts of b significant bits stored left aligned in 16 bits, import_field returns the counts; other png files keep their sample values.", "quantifier": "every image, every number of significant bits, grey and colour", "why_tests_cant": "all images and bit depths; depends on optional metadata in the file", "anchors": ["postpic/io/image.py: _readpng"]}
{"id": "C81", "title": "Hot pixel removal opens every channel", "statement": "import_field(hotpixelremove=True) replaces each channel of a colour image, and a grey image as a whole, by its 3x3 grey opening.", "quantifier": "every image size and number of channels", "why_tests_cant": "branches depend on the number of dimensions and channels of the file", "anchors": ["postpic/io/image.py: _import_field_image"]}
{"id": "C82", "title": "The ending of a file name chooses the format", "statement": "export_field writes npz, csv or vtk according to the last three letters of the name in any capitalisation, into the file of that name, and refuses every other name; load_field reads names ending in npz and refuses all others.", "quantifier": "every file name, field and disk content", "why_tests_cant": "names are unbounded", "anchors": ["postpic/io/__init__.py: export_field, load_field"]}
{"id": "C83", "title": "kspace computes the documented combination of spectra", "statement": "kspace(component, fields) returns, in the frequency domain of the main field, the spectrum of that field minus a factor times the component of k x (other field): w/k^2 for electric and -1/w for magnetic components, 0 where undefined; it succeeds whenever the needed fields are there on grids that fit.", "quantifier": "every component, number of dimensions, dictionary of fields, state of each field and dispersion relation", "why_tests_cant": "infinitely many fields, dimensions and domain states", "anchors": ["postpic/helper.py: kspace, _kspace_helper_cutfields"]}
{"id": "C84", "title": "Reconstruction doubles waves going forward and removes waves going backward", "statement": "For every mode of a plane transversal wave (B = k x E / w) kspace returns twice the component; for the wave going the other way it returns zero.", "quantifier": "every mode, dispersion relation, component and amplitude", "why_tests_cant": "holds mode by mode on grids of every size", "anchors": ["postpic/helper.py: kspace"]}
{"id": "C85", "title": "kspace_epoch_like corrects for the time averaging", "statement": "kspace_epoch_like divides by the response |cos(w dt/2)| of averaging over one step, and uses the dispersion relation given by the caller.", "quantifier": "every step, dispersion relation and dictionary of fields", "why_tests_cant": "all dispersion relations are functions", "anchors": ["postpic/helper.py: kspace_epoch_like, linear_phase"]}
{"id": "C86", "title": "The fields read by kspace are the documented ones", "statement": "The reconstruction of a component in n dimensions reads exactly the component itself and, for every dimension not along it, the other field along the third direction; missing ones raise ValueError.", "quantifier": "every component and number of dimensions, every dictionary of fields", "why_tests_cant": "every dictionary that lacks a field", "anchors": ["postpic/helper.py: kspace", "postpic/_field_calc.py: FieldAnalyzer._kspace"]}
{"id": "C87", "title": "unstagger_fields brings staggered fields to one grid", "statement": "helper.unstagger_fields returns the given fields on the grid with the given origin, or of the first field, or from three fields on of the median of the first points; fields already there are returned as they are, band limited fields keep their values as functions of the position, fields more than two cells away raise ValueError. Field.adjust_stagger_to brings a field to the grid of another one.", "quantifier": "every list of fields of one shape with equal spacings, every origin", "why_tests_cant": "every set of positions, spacings and data", "anchors": ["postpic/helper.py: unstagger_fields", "postpic/datahandling.py: Field.adjust_stagger_to, Field._shift_grid_by_fourier"]}
{"id": "C88", "title": "kspace and kspace_propagate refuse what does not fit", "statement": "kspace raises ValueError if one of the fields needed has another shape or extent than the main field or lies at another place (two cells away or more when interpolating), and succeeds otherwise. kspace_propagate raises ValueError for fields in a mixture of domains, vectors of the wrong length, and a window or a removal of waves without a vector.", "quantifier": "every component, dictionary of fields and grids; every combination of arguments", "why_tests_cant": "every pair of grids and every combination of arguments", "anchors": ["postpic/helper.py: kspace, kspace_propagate, _kspace_propagate_generator"]}
{"id": "C89", "title": "Interpolating a field to other axes gives the data where the transform hits grid points, zero outside, and keeps the integral under affine changes of coordinates", "statement": "map_coordinates(newaxes, transform, ...) returns a field with the new axes whose value at each new point is the value interpolated at the transformed coordinates: the original data wherever the transform leads to an original grid point (for real data and for complex data in every complex_mode), zero wherever it leads out of the original grid, and the field itself for its own axes. With preserve_integral the values are weighted with the modulus of the determinant of the transform, so that transforms which scale and move every axis keep the integral exactly. Wrong numbers of axes, too few coordinates and unknown modes are refused.", "quantifier": "every uniform field of any shape, every list of new axes, every transform, every mode, every interpolation which goes through its data", "why_tests_cant": "the claim is about all transforms, grids and data values; tests can only sample particular grids, and the loss of the border region depends on the ratio of the two grids", "anchors": ["postpic/datahandling.py: Field.map_coordinates, map_axis_grid", "postpic/helper.py: approx_jacobian, jac_det"]}
{"id": "C90", "title": "Conversion to polar coordinates samples the plane at (r cos theta, r sin theta)", "statement": "topolar returns a field over evenly spaced angles and radii whose value at (theta, r) is the one of the original field at (r cos(theta - offset), r sin(theta - offset)), times r if the integral is to be preserved. By default the angles make one full turn, the radii run from the nearest to the farthest grid point, and the number of points follows the finer of the two spacings, at most 1000.", "quantifier": "every uniform field of two dimensions, every extent, shape, angle offset and complex mode", "why_tests_cant": "holds for every grid and every angle; the default extents and shapes are determined by minima and maxima over the whole grid, and a duplicate direction shows up only in sums over the full turn", "anchors": ["postpic/datahandling.py: Field.topolar", "postpic/helper.py: polar2linear, polar2linear_jacdet"]}
{"id": "C91", "title": "Linear shifts of the grid are exact for affine data, copy data for whole cells and stay within the range of the data", "statement": "shift_grid_by(..., interpolation='linear') moves the axes by the given distances and gives at each new point the value of the data interpolated linearly: exact for affine functions inside the old grid, the shifted data for whole cells with the outermost values repeated, never beyond the range of the data; other fields of the object are kept, and unknown methods are refused.", "quantifier": "every uniform real field of any shape, every set of shifted dimensions, every distance", "why_tests_cant": "a claim about all real distances and all data values, inside and beyond the ends of the grid", "anchors": ["postpic/datahandling.py: Field.shift_grid_by, _shift_grid_by_linear"]}
{"id": "C92", "title": "The time profile at a plane is the wave as it passes the plane", "statement": "time_profile_at_plane returns the field in which one spatial axis has been replaced by time: the value at time t is the one which the wave, composed of plane waves in vacuum, has at the plane at time t. By default the plane is the end of the grid in the direction of propagation; the times start when that end reaches the plane and light takes one time step per grid spacing. Waves against the direction are left out unless they are to be kept. The other axes stay, no field of the caller is written. Fields in mixed domains, axes which the field does not have, missing origins and unknown algorithms are refused.", "quantifier": "every uniform field with one, two or three axes, in space or in frequency domain, every plane, both directions, every input time", "why_tests_cant": "a claim about all planes and all times of all waves; a constant phase error is invisible in plots of the intensity", "anchors": ["postpic/helper.py: time_profile_at_plane, _time_profile_at_plane_iterative, _time_profile_at_plane_fourier"]}
{"id": "C93", "title": "Collections of species", "statement": "MultiSpecies.add with '_ions', '_nonions', '_ejected', '_noejected' or '_all' appends exactly the species of the dump the name stands for, once each and in the order of the dump, and changes nothing else; '_ions' and '_nonions' (or '_ejected' and '_noejected') together give the species of '_all'; a plain name appends that species, a missing one raises KeyError or is ignored without any change.", "quantifier": "every dump with any number of species of any names, every MultiSpecies, every sequence of names", "why_tests_cant": "the dump lists arbitrary names; a unit test adds the collections of one example dump", "anchors": ["postpic/particles/particles.py MultiSpecies.add", "postpic/particles/particles.py MultiSpecies.__init__", "postpic/particles/particles.py identifyspecies"]}
{"id": "C94", "title": "Simulation box of a collection", "statement": "MultiSpecies.simextent is the smallest interval containing the simulation boxes of all species and dumps in the object; dumpreader is the common dump reader if and only if all species share it; simextent=True replaces the ranges by the simulation box, and simgrid=True uses the grid of the simulation.", "quantifier": "every collection of species from any number of dumps, every box the dumps report, every list of scalars", "why_tests_cant": "boxes of different dumps can be nested, disjoint or moving; tests use one dump", "anchors": ["postpic/particles/particles.py MultiSpecies.simextent", "postpic/particles/particles.py MultiSpecies.simgridpoints", "postpic/particles/particles.py MultiSpecies.dumpreader", "postpic/particles/particles.py MultiSpecies._createHistgram"]}
{"id": "C95", "title": "Fields made from particles", "statement": "createField of one to three scalars returns a consistent Field with the requested number of cells, one axis per scalar carrying its name and unit, equal cells over the range given or found in the data, and whose integral over all axes, by either method of integration, is the sum of the weights; the name given is part of the name of the field.", "quantifier": "every particle data and weights, every range, number of bins and particle shape, one to three scalars", "why_tests_cant": "the integral must be exact for every placement of particles in every number of dimensions; tests compare single examples", "anchors": ["postpic/particles/particles.py MultiSpecies.createField", "postpic/particles/particles.py MultiSpecies._createHistgram", "postpic/datahandling.py Field.integrate"]}
{"id": "C96", "title": "Dispersion relations", "statement": "The function made by omega_yee_factory(dx, dt) gives, for every time step which is stable, for each wave vector of the mesh the one frequency between 0 and pi/dt which obeys the dispersion relation of the Yee scheme. It is at most c times the length of the wave vector if the grid resolves the wave, and less by at most the fraction h^2/24, where h is the largest phase between neighbouring points. It does not depend on multiples of the sampling wave number nor on the direction, and in one dimension with dt = dx/c it is c|k|. omega_free gives c times the length of the wave vector.", "quantifier": "every speed c, list of spacings, time step, wave vector, number of dimensions and point of a mesh", "why_tests_cant": "The relation must hold for every wave vector, spacing and time step; a test compares a few numbers with a few tolerances.", "anchors": ["postpic/helper.py:omega_yee_factory", "postpic/helper.py:omega_free"]}
{"id": "C97", "title": "Physical constants and critical density", "statement": "The constants of PhysicalConstants are consistent: epsilon0 mu0 c^2 = 1, and ncrit(l) is the density at which the plasma frequency of electrons equals the frequency of light of the wavelength l. ncrit_um takes the same wavelength in micrometres.", "quantifier": "every wavelength different from zero", "why_tests_cant": "The law relates transcendental constants and holds for every wavelength; a test can only compare rounded numbers.", "anchors": ["postpic/helper.py:PhysicalConstants"]}
{"id": "C98", "title": "Saved plots get file names which are distinct and stay in the output directory", "statement": "Every call of the matplotlib plotter's savename returns a file name that no earlier call of this plotter returned, so that no plot overwrites another; the file lies directly in the given output directory, whatever characters the key contains, and carries the extension given or the default one. lastsavename returns the last name without its extension and does not use up a name. This holds while the attributes are fixed; when directory, project or the reader's name are changed in between it holds for plots with the same extension. A percent sign in a name that is already taken makes the call raise, different extensions together with a renamed reader can give the same file twice, and the first lastsavename before any plot gives the extension while later ones do not.", "quantifier": "all sequences of calls with any keys and extensions, with the attributes of plotter and reader fixed or assigned between the calls", "why_tests_cant": "collisions depend on the whole history of names and on how digits, separators and renamed readers combine; a test saves a handful of plots with one plotter", "anchors": ["postpic/plotting/plotter_matplotlib.py: MatplotlibPlotter.savename, lastsavename, __len__, project"]}
{"id": "C99", "title": "What a plot shows is the field", "statement": "A field with one dimension of more than one point is drawn as a line with every value at its grid point; one with two such dimensions is drawn as an image with the first axis to the right and the second upwards, whose pixels are the cells of the field, or, if an axis is not linear, as a mesh whose cells have the edges of the field's cells. The scale is logarithmic exactly if wanted and if no value is negative and some value is positive; otherwise the colors reach from -b to b with the largest absolute value b, or over the limits given. An axis of two unequal cells, or one shorter than 1e-8, counts as linear and is drawn with equal cells; a mesh of values that are not drawn logarithmically raises IndexError unless limits are given.", "quantifier": "all consistent fields with one or two dimensions longer than one, all axes, all values and arguments", "why_tests_cant": "orientation and the position of every pixel have to be right for every shape and every non-uniform axis, and the tests for plots only check that nothing raises", "anchors": ["postpic/plotting/plotter_matplotlib.py: MatplotlibPlotter.addField1d, addField2d, symmetricclim", "postpic/datahandling.py: Axis.islinear, Field.squeeze"]}
{"id": "C100", "title": "Lineouts, reduction and arguments of plotField", "statement": "A lineout along one axis of a plot shows, for every point, the mean of the field over the other axis, in the order of the points; plotFields1d leaves the infos of the fields as they are if they are all equal. Positions of a lineout run from end to end of the axis and are therefore off by up to half a cell; differing infos of the fields given are deleted from them; the result of the automatic reduction of large fields is not used; the arguments of two-dimensional plots raise TypeError for one-dimensional fields and savecsv is ignored for two-dimensional ones; a field with a single value is shown as having no data.", "quantifier": "all fields, all extents, all combinations of the keyword arguments, all lists of fields", "why_tests_cant": "the shift of the positions depends on the index and on the number of cells, and arguments meet fields of every dimension; a test draws a few fields and looks at nothing", "anchors": ["postpic/plotting/plotter_matplotlib.py: MatplotlibPlotter._addxlineout, _addylineout, plotFields1d, plotField"]}
{"id": "C101", "title": "The index over the files of a Smilei directory shows what the files hold", "statement": "Opening a directory of Smilei output makes an index file with links to everything in the h5 files. If no two files hold data under the same name the first opening succeeds, and exactly the objects of the files can then be found, independently of the order in which the directory lists its files; otherwise it raises. In every later history of writing, opening and dying processes, data that is found is what a file holds under that name at that time. The index is never updated: data written after the first opening, data missed because the first opening was interrupted and data missed because it raised are never found, and later openings report no problem; attributes of groups that differ between files depend on the listing order.", "quantifier": "all directories, all orders of the listing, all histories of writes, openings and interruptions at any object", "why_tests_cant": "the result depends on the directory order, on the moment of an interruption and on everything that happened to the directory before; a test opens one prepared directory", "anchors": ["postpic/datareader/smileih5.py: _generateh5indexfile, _getindexfile, SmileiReader.__init__, SmileiSeries.__init__"]}
{"id": "C102", "title": "What dumps list can be read", "statement": "listSpecies of an EPOCH dump returns, sorted and each once, the names of the species which have particle data, independent of the order of the keys; getSpecies returns the data stored for the attribute under each of its names and raises KeyError and nothing else for what was not dumped; getderived lists, sorted, the names of all derived fields (EPOCH) or of all fields except E and B (openPMD); simdimensions is the digit in the name of the code.", "quantifier": "every set of keys of a dump, every species, attribute and name of a code", "why_tests_cant": "Names of species, subsets and derived quantities are chosen by users; tests look at one or two dumps.", "anchors": ["postpic/datareader/epochsdf.py: Sdfreader.listSpecies, getSpecies, getderived, simdimensions", "postpic/datareader/openPMDh5.py: OpenPMDreader.getderived"]}
{"id": "C103", "title": "Field components come from where the code stored them", "statement": "Ex, Ey, Ez, Er, Etheta and Bx, ..., Btheta of a dump return a field with the data stored for this component, axes of the same grid in order with as many points as the data has, named after the component and with unit V/m for E and T for B.", "quantifier": "every reader (EPOCH, openPMD, FBPIC, Smilei), component, keyword average, theta, Ntheta, shape of the data", "why_tests_cant": "Every reader has ten components and keywords; tests read a few of them from the dump at hand.", "anchors": ["postpic/_field_calc.py: FieldAnalyzer.Ex, Ey, Ez, Er, Etheta, Bx, By, Bz, Br, Btheta, getaxisobj, setgridtofield", "postpic/datareader/epochsdf.py: _keyE, _keyB", "postpic/datareader/openPMDh5.py: _keyE, _keyB, FbpicReader.dataE, dataB", "postpic/datareader/smileih5.py: _keyE, _keyB"]}
{"id": "C104", "title": "Choice of the alignment in kspace_Ex, ...", "statement": "kspace_Ex, ..., kspace_Bz of a dump accept the alignments auto, default, epoch and epoch-final and no others; auto means epoch for .sdf files and default otherwise; epoch aligns to B and epoch-final to E with the time step of the simulation; omega_func given wins, otherwise solver='yee' uses the dispersion relation of that solver on the grid of the simulation.", "quantifier": "every name of a dump, alignment, solver, time and time step", "why_tests_cant": "The choice depends on the name of the file and on five arguments together.", "anchors": ["postpic/_field_calc.py: FieldAnalyzer._kspace"]}
{"id": "C105", "title": "Integrals with the methods of scipy", "statement": "integrate with scipy's simpson (the default) or trapezoid removes the dimensions asked for and keeps the others; the value is the sum of the trapezoids, or of the areas below parabolas, from the first to the last grid point; polynomials of degree one (trapezoid) or two (simpson) are exact; data which is not negative has no negative integral; a constant gives the constant times the extent; the order of the dimensions and whether they are integrated one by one does not matter.", "quantifier": "every consistent field of any number of dimensions and samples on any grid, every list of dimensions", "why_tests_cant": "Weights depend on the grid and on whether the number of samples is even; the order of removal matters only with several dimensions.", "anchors": ["postpic/datahandling.py: Field.integrate, Field._integrate_scipy"]}
{"id": "C106", "title": "Derivatives on the grid", "statement": "derivative keeps shape, axes and unit; its values are difference quotients at the ends and weighted means of the neighbouring difference quotients elsewhere; it is linear, does not depend on the direction of the axis, is exact for polynomials of degree two, and integrating it gives back the difference of the end values.", "quantifier": "every consistent field with at least two samples along the dimension, every grid", "why_tests_cant": "Exactness is a statement about every grid and every polynomial.", "anchors": ["postpic/datahandling.py: Field.derivative, Field._derivative"]}
{"id": "C107", "title": "Assigning the extent", "statement": "Assigning to extent gives each axis its pair of limits, keeps number of points, names, units and data; reading extent gives what was assigned; an assignment that raises changes nothing.", "quantifier": "every field and every list of numbers, also of wrong length", "why_tests_cant": "Axes are replaced one by one, so a failure leaves a history of partial updates.", "anchors": ["postpic/datahandling.py: Field.extent"]}
{"id": "C108", "title": "Making all axes ascend", "statement": "ensure_positive_axes returns the same samples at the same coordinates, with no descending axis; a field without descending axes is returned as it is; doing it twice is doing it once.", "quantifier": "every orderly field of up to three dimensions with any combination of ascending and descending axes", "why_tests_cant": "Every combination of directions and every value at every coordinate has to be compared.", "anchors": ["postpic/datahandling.py: Field.ensure_positive_axes"]}
{"id": "C109", "title": "VTK files can be read back byte by byte", "statement": "Exporting two or three dimensional fields on one grid with export_scalar_vtk, export_scalars_vtk or export_vector_vtk writes a file which any reader of the legacy VTK format understands: it finds the name asked for (with underscores for spaces), scalars or vectors, as many points and components as there are, every value of every field at the place of its grid point rounded to float or double, and the coordinates of all points. An unknown type leaves the file as it was.", "quantifier": "all fields on one grid of two or three dimensions of any size, up to four scalars or three components, all names, types and previous contents of the file, all faithful ways of writing numbers", "why_tests_cant": "The announced numbers, the order of the values and the length of the binary blocks must agree for every shape and number of components; tests compare a few files at most and none reads the file.", "anchors": ["postpic/io/vtk.py:StructuredPoints.tofile", "postpic/io/vtk.py:RectilinearGrid.tofile", "postpic/io/vtk.py:VtkFile", "postpic/io/vtk.py:PointData.tofile", "postpic/io/vtk.py:ArrayData", "postpic/io/vtk.py:Scalars.tofile", "postpic/io/vtk.py:Vectors.tofile"]}
{"id": "C110", "title": "The Tukey window of the compatibility layer", "statement": "tukey(M, alpha) of postpic._compat for scipy before 0.16 has M values between zero and one, is symmetric, starts at zero, rises like the square of a sine over the fraction alpha/2 of either side and is one in between; with sym=False it is the window of M+1 values without the last. With alpha = 1 - ll/m, as used by autocutout, exactly the ll points in the middle are one.", "quantifier": "all window lengths, all alpha, both values of sym", "why_tests_cant": "The number of points in the ramps depends on a rounded product of length and alpha; only a proof covers every length and every alpha.", "anchors": ["postpic/_compat/functions.py:sps_tukey", "postpic/datahandling.py:Field.autocutout"]}
{"id": "C111", "title": "Adaptive propagation keeps time", "statement": "kspace_propagate_adaptive yields times and fields: everything starts from the given field at time zero; from one to the next the time grows by the time light needs for half the mean width of the box across the direction of propagation, and the field, with room around it, is propagated by exactly that time with a window moving along the axis; every field is in the domain (space or frequency) of the given one; the last yield is the first whose time is beyond t_final; it is reached in a bounded number of steps; asking for fewer results gives the beginning of the same sequence; fields with axes in different domains are refused.", "quantifier": "every field, every behaviour of the field operations that keeps domain and number of axes, every axis (also counted from the back), every final time, every number of steps", "why_tests_cant": "A generator has an unbounded history, and its clock must agree with the propagation at every step.", "anchors": ["postpic/experimental.py: kspace_propagate_adaptive, _kspace_propagate_adaptive_generator"]}
{"id": "C112", "title": "Bookkeeping of selections", "statement": "However compress, filter, ~ and uncompress are chained, names and number of the species stay; the logs name what was done since the last uncompress, in order, for the whole and for every species; the selected particles and those of the inverse are together all particles of the dumps, none twice; compress selects as many as its condition is true for and refuses a short condition; initial_npart is the number of particles in the dumps; getcompresslog shows every log; + concatenates.", "quantifier": "every chain of selections of any length on every number of species with any number of particles", "why_tests_cant": "The logs are a history; each operation is right on its own, the order and the restart by uncompress show only over chains.", "anchors": ["postpic/particles/particles.py: MultiSpecies.compress, filter, __invert__, uncompress, getcompresslog, npart, initial_npart, nspecies, speciess, __add__"]}
{"id": "C113", "title": "Numpy functions and operators on Fields", "statement": "An operator or numpy function applied to a Field and a Field, an array or a number acts on the samples in the order in which the operands are written, on either side of the operator, and gives a Field (one for each result of the function) which keeps the axes, transform state, name and unit of the Fields. f op= y changes the samples of f only, holds afterwards what f op y gives, and is accepted exactly if y repeats to the shape of f. accumulate keeps the axes and ends with what reduce gives. Operands of other types are refused with a TypeError. Arrays handed back by numpy get the axes of the Field only if they fit.", "quantifier": "all Fields (up to three dimensions), arrays and numbers with broadcastable shapes, all ufuncs with any number of results, methods call, reduce, accumulate, outer, with and without out", "why_tests_cant": "The protocol has many cases: which side the Field is on, what the other operand is, the method, the number of inputs and outputs and broadcasting of any shapes; tests use a few shapes and functions.", "anchors": ["postpic/datahandling.py: Field.__array_ufunc__, Field.__array_wrap__, Field.__array__, _get_axes_ats_tao_binary_ufunc_broadcasting", "postpic/_compat/mixins.py: NDArrayOperatorsMixin, _binary_method, _reflected_binary_method, _inplace_binary_method, _unary_method"]}
{"id": "C114", "title": "Access to particle properties by text, object, function and the old methods", "statement": "ms(expr) returns one number per particle, species after species, a property which is one number for a species being repeated, and the values of two collections added are those of the first followed by those of the second; a registered property gives the same values and the same name and unit by its symbol and as an object, and axes of fields made from particles carry them; every deprecated method of MultiSpecies returns what the property named in its warning returns, labelled with its unit.", "quantifier": "every registry history, every collection of species with any values, every deprecated method", "why_tests_cant": "the values must agree for every registry a user may have built and every mixture of species with constant and per-particle properties; tests try a few properties of one dump", "anchors": ["postpic/particles/particles.py: MultiSpecies.__call__, __call_sp, __call_func, _findscalarattr, the deprecated methods time ... r_xyz", "postpic/helper.py: deprecated"]}
{"id": "C115", "title": "Axis objects keep their points, caches never show", "statement": "An Axis keeps the points, extent and length it was constructed with and answers islinear(), spacing and value_to_index() accordingly, whatever was asked before, whatever copies were made by copy.copy, copy.deepcopy or pickle, and whatever was renamed or written to through any of them; attempts to write to ax.grid or ax.grid_node raise ValueError and change nothing; name and unit belong to one object only.", "quantifier": "all programs (finite sequences of constructions, copies, deep copies or pickles, renamings, writes to grids, queries in any order) and all values", "why_tests_cant": "Caches filled by one query are used by later ones and carried into copies, so a wrong answer needs a particular order of queries, copies and writes; tests try a few orders.", "anchors": ["postpic/datahandling.py: Axis.__init__, __getstate__, islinear, spacing, value_to_index, grid, grid_node"]}
{"id": "C116", "title": "Assigning to a part of a Field", "statement": "f[keys] = v writes the numbers of v (repeated by numpy's rules) to exactly the elements which f[keys] shows and leaves every other element, all axes and all other attributes as they are; reading the part back gives v, assigning a part to itself changes nothing, the later of two assignments counts; with floats as bounds exactly the points of the box are written; values which do not fit raise ValueError and change nothing.", "quantifier": "all Fields of any number of dimensions, also flipped ones; all keys (integers, floats, slices with any step, KeepDim); all values of all shapes", "why_tests_cant": "The elements written depend on the grid, the signs and steps of the slices and the shapes; tests try a few.", "anchors": ["postpic/datahandling.py: Field.__setitem__, Field._normalize_slices, Axis._normalize_slice, Axis._extent_to_slice"]}
{"id": "C117", "title": "kspace_epoch_like_old: alignment by half a cell, and what the caller is left with", "statement": "When the component is of the kind named by align_to, the deprecated function gives what kspace gives with linear interpolation. Otherwise the component is moved by half a cell along every dimension but its own (forwards for E, backwards for B) before the waves are combined with Fourier interpolation. Field objects of the caller are not changed, and the dictionary of the caller is left as it was.", "quantifier": "all component names, dictionaries and Field objects, all extents, dispersion relations and both values of align_to; all outcomes including exceptions", "why_tests_cant": "Effects on the objects of the caller depend on the domains, the extent and on which step raises.", "anchors": ["postpic/helper.py: kspace_epoch_like_old, _kspace_helper_cutfields", "postpic/datahandling.py: Field.shift_grid_by, Field._shift_grid_by_linear"]}
{"id": "C118", "title": "What is written on a plot", "statement": "A plot of a field says which dump it is from: at the upper right the time of the dump in femtoseconds, rounded to a tenth, and its step; at the upper left the project and the name of the dump; above the axes the label of the field, or its name and unit; and its infostring, over which nothing else is written.", "quantifier": "all plotters, readers with any time and step, exceptions of these, fields, labels, names, units and infostrings, arguments of plotField, numbers of lines", "why_tests_cant": "Whether a text appears depends on whether time, step and strings count as false, on the kind of plot and on the exceptions the reader raises; tests render single figures and do not read them.", "anchors": ["postpic/plotting/plotter_matplotlib.py: annotate, annotate_fromfield, annotate_fromreader, settext_fig, settext_ax, addFields1d, plotFields1d, plotField2d", "postpic/datahandling.py: Field.label"]}
{"id": "C119", "title": "Sessions of a plotter", "statement": "After any calls of plotField, of which any may raise, exactly the plots of the calls which raised nothing are saved, in their order, each in a file of its own in the output directory. plotFields and plotallderived save every field which can be plotted. With autosave off nothing is saved and the figures are given back.", "quantifier": "all histories of calls, fields, names, keyword arguments, places of exceptions, and derived fields of readers", "why_tests_cant": "Which files exist afterwards depends on the whole history of calls and on where an exception is raised; tests make a few plots that succeed.", "anchors": ["postpic/plotting/plotter_matplotlib.py: plotField, plotFields1d, plotField2d, _skipplot, plotFields, plotallderived, savefig, savename"]}
{"id": "C120", "title": "Field.evaluate: what the names of an expression mean, and what the caller keeps", "statement": "field.evaluate(expression) gives the field with the values of the expression, entry by entry, and everything else of the field kept. The names mean what they mean to the caller, or what the dictionaries given say, the local one first. An unknown name raises KeyError, an expression which does not fit the shape ValueError. The variables and dictionaries of the caller are left as they are.", "quantifier": "all expressions, fields, dictionaries, variables of callers, and callers of each kind: functions, modules, bodies of classes; results and exceptions", "why_tests_cant": "The names are looked up in the frame of the caller, and this is changed afterwards; what happens depends on where and with which variables the call is made, tests only call from functions.", "anchors": ["postpic/datahandling.py: Field.evaluate, Field.replace_data, Field.matrix"]}
{"id": "C121", "title": "product multiplies whatever it is given, from the left", "statement": "product(iterable) multiplies the objects of the iterable from the left; the product of two parts is the product of the whole if multiplication is associative, the order makes no difference if it is commutative as well, numbers give the mathematical product, and only an empty iterable fails. product(range(n)) is n! as documented.", "quantifier": "every finite iterable of objects with any multiplication", "why_tests_cant": "infinitely many iterables and multiplications", "anchors": "postpic/helper.py: product"}
{"id": "C122", "title": "KeepDim keeps the dimension", "statement": "ax[KeepDim(i)] is cell i of the axis as an axis of length one: its point is ax[i] and its nodes are the two ends of the cell. A coordinate selects the cell of the point which ax[v] returns and fails where ax[v] does; around a slice KeepDim changes nothing; on a field KeepDim(i) is the slice i:i+1.", "quantifier": "every axis, every position or coordinate which the axis accepts, every field and tuple of keys", "why_tests_cant": "positions, coordinates and axes are unbounded; the tests use one positive position and one coordinate", "anchors": ["postpic/datahandling.py: KeepDim, Axis._normalize_slice, Axis.__getitem__, Field._normalize_slices"]}
{"id": "C123", "title": "Equality of axes compares all points", "statement": "ax1 == ax2 is True exactly if extents, nodes and points agree up to the tolerance of numpy.isclose, and False otherwise, whatever the names and units; it is reflexive, symmetric and transitive.", "quantifier": "every pair of axes, with the same or different numbers of points", "why_tests_cant": "pairs and triples of axes are unbounded; rounding at the tolerance decides symmetry", "anchors": ["postpic/datahandling.py: Axis.__eq__"]}
{"id": "C124", "title": "The fft helper adds defaults and nothing else", "statement": "Every transform called through the helper equals the transform of the module in use (pyfftw or numpy.fft) with the helper's default keywords filled in where the caller gives none; keywords of the caller always win, all other functions of the module are passed on unchanged, and no call changes what later calls do.", "quantifier": "every module, every set of defaults, every history of calls with arbitrary arguments and keywords", "why_tests_cant": "histories of calls are unbounded and the defaults are a shared dictionary", "anchors": ["postpic/helper_fft.py: _fft"]}
{"id": "C125", "title": "A series of dumps answers like the list of its dumps", "statement": "For a simulation reader `dump in sim`, sim.index(dump), sim.count(dump) and reversed(sim) give what they give for the list of its dumps, with dumps compared by ==: the first position, ValueError if there is none, the number of equal dumps, the opposite order.", "quantifier": "every series of files of any length, every dump, whatever opening a file does", "why_tests_cant": "all lengths and all places at which files cannot be opened", "anchors": ["postpic/datareader/datareader.py: Simulationreader_ifc, Dumpreader_ifc.__eq__"]}
{"id": "C126", "title": "Labels and names follow the last assignment", "statement": "After any sequence of assignments to label, name and unit of a Field its label is the last non-empty one assigned, unless that was taken back, and otherwise is made from the present name and unit, from which both can be read; the name of a dump or simulation reader is the text last given, or that of its identifier if none or an empty one was given.", "quantifier": "every sequence of assignments, all texts and objects", "why_tests_cant": "sequences of assignments are unbounded", "anchors": ["postpic/datahandling.py: Axis.label, Field.label", "postpic/datareader/datareader.py: Dumpreader_ifc.name, Simulationreader_ifc.name"]}
{"id": "C127", "title": "The texts beside the axes of a plot", "statement": "After a Field is drawn as a line or an image, the text beside the horizontal axis is name and unit of its first axis with more than one point, and for images the text beside the vertical axis that of the second such axis, wherever these are among the axes of the Field; lines drawn into an image leave its vertical text; if several Fields are drawn into one plot, the horizontal text is that of each of them.", "quantifier": "all Fields with proper axes, any sequence of lines and images on the same axes, all keyword arguments under which the drawing succeeds", "why_tests_cant": "the number of lines and the places of axes of one point are unbounded", "anchors": ["postpic/plotting/plotter_matplotlib.py: addField1d, addFields1d, addField2d, addaxislabels", "postpic/datahandling.py: Axis.label"]}
