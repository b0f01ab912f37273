{"id": "C01", "title": "Cached parameters are never stale on one object", "statement": "After any sequence of reads (cached parameter calls) and edits made through one Surface/Profile (assigning .data, item assignment, any inplace operation), every parameter call returns exactly the value a freshly constructed object holding the current heights and steps would return.", "quantifier": "every history of API calls on one object, every argument list, every height array", "why_tests_cant": "staleness depends on the whole interleaving of reads and edits; tests try a few histories", "anchors": ["surfalize/cache.py:cache", "surfalize/cache.py:CachedInstance.clear_cache", "surfalize/base.py:BaseTopography.__setitem__", "surfalize/surface.py:Surface.data", "surfalize/surface.py:Surface._set_data", "surfalize/profile.py:Profile._set_data"]}
{"id": "C02", "title": "Edits never make another object stale", "statement": "Editing one Surface never changes, behind its cache, the heights of another Surface: after any history over a family of surfaces obtained from each other by slicing, cropping, zooming or copying operations, every parameter call returns the value belonging to the current heights of its object.", "quantifier": "every history over any number of surfaces related by slicing/crop/zoom/copy", "why_tests_cant": "aliasing bugs need a specific interleaving of derive/read/edit on two objects", "anchors": ["surfalize/surface.py:Surface.__getitem__", "surfalize/surface.py:Surface.crop", "surfalize/surface.py:Surface.zoom", "surfalize/base.py:BaseTopography.__setitem__", "surfalize/cache.py:cache"]}
{"id": "C03", "title": "Repeating an operation repeats its effect", "statement": "Calling an inplace operation k times has the same effect as applying its mathematical transformation k times; calling a non-inplace operation twice yields two independent results.", "quantifier": "every operation, every number of repetitions, every state", "why_tests_cant": "the second call behaves differently only through hidden state", "anchors": ["surfalize/surface.py:Surface.stepheight_level", "surfalize/cache.py:cache", "surfalize/base.py:BaseTopography.center"]}
{"id": "C04", "title": "inplace and copying variants agree", "statement": "For every operation with an inplace flag, inplace=True leaves the receiver with exactly the heights and steps of the object returned by inplace=False, and inplace=False leaves the receiver (heights, steps, extents) unchanged.", "quantifier": "every operation, every surface and argument", "why_tests_cant": "universally quantified over data and arguments", "anchors": ["surfalize/base.py:BaseTopography.center", "surfalize/base.py:BaseTopography.zero", "surfalize/base.py:BaseTopography.invert", "surfalize/base.py:BaseTopography.threshold", "surfalize/base.py:BaseTopography.remove_outliers", "surfalize/surface.py:Surface.crop", "surfalize/surface.py:Surface.zoom", "surfalize/surface.py:Surface._with_data"]}
{"id": "C05", "title": "Physical extent always matches shape and step", "statement": "At every point of every history of API calls, width_um = (number of columns - 1) * step_x and height_um = (number of rows - 1) * step_y (Profile: length_um = (n-1)*step unless given explicitly).", "quantifier": "every reachable state of every object", "why_tests_cant": "invariant over unbounded histories", "anchors": ["surfalize/surface.py:Surface.__init__", "surfalize/surface.py:Surface.data", "surfalize/surface.py:Surface._set_data", "surfalize/profile.py:Profile._set_data"]}
{"id": "C06", "title": "Methods that need complete data reject incomplete data", "statement": "Every method documented as requiring filled data raises ValueError if and only if some height is non-measured, and then changes nothing; in particular no cached value is served from before the point became non-measured.", "quantifier": "every array with any number of non-measured points anywhere, every history", "why_tests_cant": "a single NaN anywhere among millions of points must be detected, also after cached calls", "anchors": ["surfalize/base.py:no_nonmeasured_points", "surfalize/base.py:BaseTopography.has_missing_points", "surfalize/surface.py:Surface.height_parameters", "surfalize/surface.py:Surface.surface_area"]}
{"id": "C07", "title": "Surface arithmetic is pointwise and checked", "statement": "a+b, a-b, a*b, a/b of two surfaces is the pointwise operation when steps and shapes agree and a ValueError otherwise; scalars broadcast; reflected operators give c+a = a+c, c*a = a*c and c-a = -(a-c); non-measured points stay non-measured.", "quantifier": "all pairs of surfaces and all scalars", "why_tests_cant": "algebraic law over all arrays", "anchors": ["surfalize/surface.py:Surface._arithmetic_operation", "surfalize/surface.py:Surface.__add__", "surfalize/surface.py:Surface.__rsub__"]}
{"id": "C08", "title": "Equality is sound and compatible with hashing", "statement": "surface equality is reflexive and symmetric, and returns False whenever a height differs by more than 1e-10, a non-measured point is at a different position, or steps/shape differ; equal surfaces have equal hashes.", "quantifier": "all pairs/triples of surfaces", "why_tests_cant": "quantified over pairs; hash contract fails only on special pairs", "anchors": ["surfalize/surface.py:Surface.__eq__", "surfalize/surface.py:Surface.__hash__"]}
{"id": "C09", "title": "Slicing keeps heights at their physical position", "statement": "surface[a:b:s, c:d:t] contains exactly the heights of the selected rows/columns and its step equals the physical distance between neighbouring selected points (positive).", "quantifier": "all slices incl. negative bounds and steps", "why_tests_cant": "all combinations of slice parameters", "anchors": ["surfalize/surface.py:Surface.__getitem__"]}
{"id": "C10", "title": "center", "statement": "center() moves the mean of the measured heights to 0, preserves all height differences, the set of non-measured points, shape and steps, and is idempotent.", "quantifier": "every surface with at least one measured point", "why_tests_cant": "for all data", "anchors": ["surfalize/base.py:BaseTopography.center"]}
{"id": "C11", "title": "zero", "statement": "zero() moves the lowest measured height to 0, all measured heights become >= 0, preserves height differences and non-measured points, is idempotent and absorbs earlier shifts.", "quantifier": "every surface with at least one measured point", "why_tests_cant": "for all data", "anchors": ["surfalize/base.py:BaseTopography.zero"]}
{"id": "C12", "title": "invert", "statement": "invert() reverses the order of heights, keeps min and max, is its own inverse, and keeps non-measured points (and only those) non-measured.", "quantifier": "every surface, with or without non-measured points", "why_tests_cant": "for all data; the NaN case is rarely tested", "anchors": ["surfalize/base.py:BaseTopography.invert"]}
{"id": "C13", "title": "remove_outliers", "statement": "remove_outliers(n) never changes a kept height, never resurrects a non-measured point, removes exactly the measured points further than n standard deviations (median distances) from the mean (median), removes fewer points for larger n, and rejects unknown methods with ValueError.", "quantifier": "every surface, every n", "why_tests_cant": "for all data and n", "anchors": ["surfalize/base.py:BaseTopography.remove_outliers"]}
{"id": "C14", "title": "threshold", "statement": "threshold((u,l)) raises ValueError iff u+l >= 100; otherwise it keeps every kept height unchanged, keeps exactly the measured points inside one closed height band, always keeps at least one point, with 0 removes nothing, and the number of points removed at each end is at most the requested percentage (rounded to one point).", "quantifier": "every surface and threshold pair", "why_tests_cant": "for all data, ties and percentages", "anchors": ["surfalize/base.py:BaseTopography.threshold", "surfalize/mathutils.py:argclosest"]}
{"id": "C15", "title": "filter splits the topography", "statement": "filter(both) returns two surfaces whose sum is the original; highpass equals original minus lowpass; bandpass equals the highpass(cutoff2) of the lowpass(cutoff); invalid mode, both with inplace, missing or non-increasing cutoff2 raise ValueError and leave the object unchanged.", "quantifier": "every surface, cutoff and smoothing kernel", "why_tests_cant": "for all data and cutoffs", "anchors": ["surfalize/base.py:BaseTopography.filter", "surfalize/filter.py:GaussianFilter"]}
{"id": "C16", "title": "Gaussian filter transmits 50% at the cutoff", "statement": "For every cutoff wavelength the Gaussian kernel chosen by the filter transmits exactly half the amplitude of a sinusoid of that wavelength, independently of the pixel size along each axis.", "quantifier": "every positive cutoff and step", "why_tests_cant": "real identity for all values", "anchors": ["surfalize/filter.py:GaussianFilter.sigma", "surfalize/filter.py:GaussianFilter.apply"]}
{"id": "C17", "title": "crop selects exactly the requested box", "statement": "crop(box) returns exactly the rows/columns of the box (both ends included; y measured upwards from the bottom when in units), with shape (y1-y0+1, x1-x0+1) and unchanged steps; cropping to the full extent is the identity; nested crops compose; any box not inside the surface raises ValueError.", "quantifier": "all boxes and shapes, in pixels and in units", "why_tests_cant": "boundary arithmetic over all boxes", "anchors": ["surfalize/surface.py:Surface.crop"]}
{"id": "C18", "title": "zoom keeps a centred window", "statement": "zoom(f) for f >= 1 returns a contiguous centred window of int(n/f) (+1 when it fits) rows and columns of the original, zoom(1) is the identity; the result is never empty.", "quantifier": "all shapes and factors", "why_tests_cant": "rounding over all sizes and factors", "anchors": ["surfalize/surface.py:Surface.zoom", "surfalize/profile.py:Profile.zoom"]}
{"id": "C19", "title": "Profile extraction returns the closest line", "statement": "get_horizontal_profile(y)/get_vertical_profile(x) return the row/column closest to the requested position for every 0 <= y <= height_um, averaged over the requested number of lines inside the surface, and raise ValueError outside.", "quantifier": "all positions, shapes, averages", "why_tests_cant": "rounding at every position incl. both borders", "anchors": ["surfalize/surface.py:Surface.get_horizontal_profile", "surfalize/surface.py:Surface.get_vertical_profile"]}
{"id": "C20", "title": "Levelling/detrending removes a polynomial trend and nothing else", "statement": "detrend_polynomial(d): detrended + trend equals the original at every measured point, non-measured points stay non-measured and the trend is defined everywhere; the result is orthogonal to every polynomial term, so detrending again changes nothing and adding a plane before level() does not change its result.", "quantifier": "every surface/profile, every degree", "why_tests_cant": "for all data and gaps", "anchors": ["surfalize/surface.py:Surface.detrend_polynomial", "surfalize/surface.py:Surface.level", "surfalize/profile.py:Profile.detrend_polynomial"]}
{"id": "C21", "title": "fill_nonmeasured", "statement": "fill_nonmeasured leaves every measured height unchanged, with method nearest leaves no non-measured point and only uses heights that were measured; on complete data it changes nothing.", "quantifier": "every gap pattern", "why_tests_cant": "all gap patterns", "anchors": ["surfalize/surface.py:Surface.fill_nonmeasured", "surfalize/profile.py:Profile.fill_nonmeasured"]}
{"id": "C22", "title": "Height parameters satisfy the ISO inequalities", "statement": "Sz = Sp + Sv = max - min, 0 <= Sa <= Sq <= max(Sp,Sv), Sp >= 0, Sv >= 0, and for non-flat surfaces Sku >= 1 + Ssk^2; Sq = 0 iff the surface is flat.", "quantifier": "every complete surface", "why_tests_cant": "real inequalities over all arrays", "anchors": ["surfalize/surface.py:Surface.height_parameters"]}
{"id": "C23", "title": "Height parameters are invariant", "statement": "Adding a constant changes no height parameter; multiplying heights by k scales Sa, Sq, Sz by |k| and leaves Sku; inverting swaps Sp and Sv and negates Ssk; the order of the points does not matter.", "quantifier": "every surface and constant", "why_tests_cant": "for all data", "anchors": ["surfalize/surface.py:Surface.height_parameters", "surfalize/base.py:BaseTopography.invert"]}
{"id": "C24", "title": "Developed area", "statement": "surface_area is at least the area of the sampled rectangle, with equality iff the surface is flat; it equals the area of a tilted plane exactly; Sdr of a flat surface is 0 and Sdr is never negative.", "quantifier": "every complete surface with at least 2x2 points, all steps", "why_tests_cant": "for all data; bias independent of data", "anchors": ["surfalize/surface.py:Surface.surface_area", "surfalize/surface.py:Surface.projected_area", "surfalize/surface.py:Surface.Sdr"]}
{"id": "C25", "title": "Sdq", "statement": "Sdq is non-negative, 0 iff flat, shift invariant, scales with |k|, and equals the slope magnitude on a tilted plane up to the border normalisation.", "quantifier": "every complete surface", "why_tests_cant": "for all data", "anchors": ["surfalize/surface.py:Surface.Sdq", "surfalize/profile.py:Profile.Rdq"]}
{"id": "C26", "title": "Homogeneity lies in [0,1]", "statement": "homogeneity is a number in [0,1] for every surface and parameter list of non-negative parameters, equals 1 when all cells agree, and disallowed parameters raise ValueError before any computation.", "quantifier": "every list of cell values", "why_tests_cant": "inequality for every Lorenz curve", "anchors": ["surfalize/surface.py:Surface.homogeneity"]}
{"id": "C27", "title": "depth samples only existing profiles", "statement": "depth(nprofiles) for any 2 <= nprofiles <= number of rows samples nprofiles distinct existing rows; it never fails with an index error.", "quantifier": "all surface sizes and nprofiles", "why_tests_cant": "fails only when nprofiles-1 divides the size", "anchors": ["surfalize/surface.py:Surface.depth"]}
{"id": "C28", "title": "Step height and cavity volume are non-negative", "statement": "stepheight and cavity_volume are >= 0 for every two-level surface, invariant under vertical shift, and the two levels partition the points.", "quantifier": "every non-flat surface", "why_tests_cant": "for all data", "anchors": ["surfalize/surface.py:Surface._stepheight_get_mask", "surfalize/surface.py:Surface.stepheight", "surfalize/surface.py:Surface.cavity_volume", "surfalize/mathutils.py:otsu_threshold"]}
{"id": "C29", "title": "Sampling lengths partition the profile", "statement": "For 1 <= n <= size the sections used for Rp/Rv/Rz are n non-empty contiguous pieces in order, their concatenation is the centred profile and their lengths differ by at most one; other n raise ValueError.", "quantifier": "all sizes and section counts", "why_tests_cant": "all (size,n) pairs", "anchors": ["surfalize/profile.py:Profile._sectioned_data"]}
{"id": "C30", "title": "Profile height parameters", "statement": "0 <= Ra <= Rq; Rz(n) <= Rt for every n; Rz(1) = Rt = Rp(1)+Rv(1); Rz(n) <= Rp(n)+Rv(n); Rku >= 1 + Rsk^2; refining the sections (n to a multiple of n on equal pieces) never increases Rz.", "quantifier": "every profile and section count", "why_tests_cant": "for all data", "anchors": ["surfalize/profile.py:Profile.Rp", "surfalize/profile.py:Profile.Rv", "surfalize/profile.py:Profile.Rz", "surfalize/profile.py:Profile.Rt", "surfalize/profile.py:Profile.Ra", "surfalize/profile.py:Profile.Rq"]}
{"id": "C31", "title": "Profile crop", "statement": "Profile.crop((x0,x1)) returns exactly samples x0..x1 and raises ValueError iff the interval is not a proper interval inside the profile.", "quantifier": "all intervals and sizes", "why_tests_cant": "boundary arithmetic", "anchors": ["surfalize/profile.py:Profile.crop"]}
{"id": "C32", "title": "Material ratio curve is monotone", "statement": "mc(p) is non-increasing in p, mc(0) = max height, mc(100) = min height, and every mc(p) lies between them; mc of arguments outside [0,100] is clamped.", "quantifier": "every complete data set, every p, every number of classes", "why_tests_cant": "for all data", "anchors": ["surfalize/abbottfirestone.py:AbbottFirestoneCurve._get_material_ratio_curve", "surfalize/abbottfirestone.py:AbbottFirestoneCurve.mc", "surfalize/mathutils.py:interp1d"]}
{"id": "C33", "title": "Core parameters are well formed", "statement": "Sk >= 0, 0 <= Smr1 <= Smr2 <= 100, Sdc(p,q) = Sxp(p,q) >= 0 for p <= q, and the central region search terminates with a 40% window inside the curve.", "quantifier": "every complete data set", "why_tests_cant": "for all data", "anchors": ["surfalize/abbottfirestone.py:AbbottFirestoneCurve._calculate_curve", "surfalize/abbottfirestone.py:AbbottFirestoneCurve.k", "surfalize/abbottfirestone.py:AbbottFirestoneCurve.mr1", "surfalize/abbottfirestone.py:AbbottFirestoneCurve.dc"]}
{"id": "C34", "title": "Volume parameters", "statement": "Vm(p) and Vv(p) are non-negative, Vm is non-decreasing and Vv non-increasing in p, Vmc(p,q) >= 0 and Vvc(p,q) >= 0 for p <= q, Vm(0) = 0 and Vv(100) = 0. Vv(p) is the void below, and Vm(p) the material above, the point of the sampled curve nearest to the height at ratio p, per unit area. (Not guaranteed: Vm leaves out the last strip of the curve.)", "quantifier": "every complete data set and all p <= q", "why_tests_cant": "for all data and ratios", "anchors": ["surfalize/abbottfirestone.py:AbbottFirestoneCurve.Vm", "surfalize/abbottfirestone.py:AbbottFirestoneCurve.Vv", "surfalize/abbottfirestone.py:AbbottFirestoneCurve.vmc", "surfalize/abbottfirestone.py:AbbottFirestoneCurve.vvc"]}
{"id": "C35", "title": "Reduced peak and dale heights", "statement": "Spk >= 0 and Svk >= 0, and the triangle areas Sak1 and Sak2 equal the measured areas above/below the core (Sak1 = Spk*Smr1/2).", "quantifier": "every complete data set with Smr1 > 0, Smr2 < 100", "why_tests_cant": "for all data", "anchors": ["surfalize/abbottfirestone.py:AbbottFirestoneCurve.pk", "surfalize/abbottfirestone.py:AbbottFirestoneCurve.vk", "surfalize/abbottfirestone.py:AbbottFirestoneCurve.ak1", "surfalize/abbottfirestone.py:AbbottFirestoneCurve.ak2"]}
{"id": "C36", "title": "mr and mc are inverse", "statement": "mr(mc(p)) = p for strictly decreasing curves, and mr is non-increasing with values in [0,100] for every curve.", "quantifier": "every curve and ratio", "why_tests_cant": "for all data", "anchors": ["surfalize/abbottfirestone.py:AbbottFirestoneCurve.mr", "surfalize/abbottfirestone.py:AbbottFirestoneCurve.mc", "surfalize/mathutils.py:interp1d"]}
{"id": "C37", "title": "argclosest/closest return a nearest element", "statement": "argclosest(x, data) returns the first index whose value has minimal distance to x, for every non-empty array; closest returns that value and is the identity on members.", "quantifier": "all arrays and targets", "why_tests_cant": "for all arrays incl. ties", "anchors": ["surfalize/mathutils.py:argclosest", "surfalize/mathutils.py:closest"]}
{"id": "C38", "title": "Linear interpolation", "statement": "The interpolator passes through its nodes, stays between the neighbouring node values, preserves monotonicity, clamps outside and does not depend on the order in which distinct nodes are given.", "quantifier": "all node sets with distinct abscissae", "why_tests_cant": "for all arrays", "anchors": ["surfalize/mathutils.py:interp1d"]}
{"id": "C39", "title": "Fitted sinusoids are normalised faithfully", "statement": "Converting a fitted sinusoid with negative amplitude into positive amplitude does not change the function; first_extremum and first_peak return the smallest non-negative position of an extremum/peak.", "quantifier": "all amplitudes, periods, phases", "why_tests_cant": "real identities for all parameters", "anchors": ["surfalize/mathutils.py:Sinusoid.from_fit", "surfalize/mathutils.py:Sinusoid.first_extremum", "surfalize/mathutils.py:Sinusoid.first_peak"]}
{"id": "C40", "title": "Otsu threshold separates two classes", "statement": "For every data set with at least two distinct values the Otsu threshold lies between minimum and maximum and both classes (above / not above) are non-empty.", "quantifier": "every data set with two distinct values", "why_tests_cant": "for all data", "anchors": ["surfalize/mathutils.py:otsu_threshold", "surfalize/surface.py:Surface._stepheight_get_mask"]}
{"id": "C41", "title": "Autocorrelation", "statement": "The autocorrelation function is point symmetric about its centre, its centre value is the variance, and Sal <= the distance of slowest decay so Str lies in [0,1].", "quantifier": "every complete surface", "why_tests_cant": "for all data", "anchors": ["surfalize/autocorrelation.py:AutocorrelationFunction"]}
{"id": "C42", "title": "Spatial frequencies are calibrated", "statement": "The spatial wavelength reported for a pure sinusoid with k full periods over the N sampled points equals N*step/k.", "quantifier": "all sizes, steps and k", "why_tests_cant": "calibration for all sizes", "anchors": ["surfalize/fourier.py:FourierTransform"]}
{"id": "C43", "title": "Unit conversion is a consistent system", "statement": "conversion factors satisfy f(a,a)=1, f(a,b)*f(b,a)=1, f(a,b)*f(b,c)=f(a,c); every spelling of micrometre converts alike in both positions; unknown units raise ValueError.", "quantifier": "all unit strings", "why_tests_cant": "over all strings", "anchors": ["surfalize/file/common.py:get_unit_conversion", "surfalize/file/common.py:fix_decoding_issues"]}
{"id": "C44", "title": "Binary layouts round-trip", "statement": "Reading back what Layout.write wrote returns the written values for every in-range integer field and every string that fits its field and does not end in blank/NUL; the number of bytes is exactly the sum of field sizes; out-of-range values raise instead of being truncated.", "quantifier": "all layouts, all values, any bytes before and after", "why_tests_cant": "codec law over all values", "anchors": ["surfalize/file/common.py:Layout", "surfalize/file/common.py:Entry", "surfalize/file/common.py:Reserved"]}
{"id": "C45", "title": "SUR round trip", "statement": "Saving to .sur and loading returns a surface of the same shape and steps with every measured height within one quantisation step (max-min)/(2^32-4), every non-measured point non-measured, and the extreme heights exact; flat and gap-containing surfaces included.", "quantifier": "every surface", "why_tests_cant": "for all data incl. flat/NaN", "anchors": ["surfalize/file/sur.py:write_sur", "surfalize/file/sur.py:read_sur"]}
{"id": "C46", "title": "SUR compressed round trip", "statement": "Saving with compressed=True and loading returns the same surface as the uncompressed format.", "quantifier": "every surface", "why_tests_cant": "for all data", "anchors": ["surfalize/file/sur.py:write_sur", "surfalize/file/sur.py:read_sur"]}
{"id": "C47", "title": "SFLZ round trip", "statement": "Saving to .sflz and loading returns the same heights (exactly for float storage, within one quantisation step for integer storage of any signedness), steps, non-measured points, image layers and layer names.", "quantifier": "every surface, every storage type", "why_tests_cant": "for all data and dtypes", "anchors": ["surfalize/file/sflz.py:write_sflz", "surfalize/file/sflz.py:read_sflz"]}
{"id": "C48", "title": "SDF round trip", "statement": "Saving to .sdf (binary or ASCII) and loading returns the same surface; sizes beyond the 16-bit header fields are rejected.", "quantifier": "every surface", "why_tests_cant": "for all sizes and data", "anchors": ["surfalize/file/sdf.py:write_sdf", "surfalize/file/sdf.py:read_sdf"]}
{"id": "C49", "title": "TMD round trip", "statement": "Saving to .tmd and loading returns the same shape, heights and steps, and over-long comments raise ValueError.", "quantifier": "every surface and comment", "why_tests_cant": "for all data", "anchors": ["surfalize/file/tmd.py:write_tmd", "surfalize/file/tmd.py:read_tmd"]}
{"id": "C50", "title": "AL3D round trip", "statement": "Saving to .al3d and loading returns the same shape and gaps, every height as the file can hold it (metres in single precision: within 2^-21 of the height relative, and 2^-128 absolute), and the steps within 2^-50 relative.", "quantifier": "every surface", "why_tests_cant": "for all data", "anchors": ["surfalize/file/al3d.py:write_al3d", "surfalize/file/al3d.py:read_al3d"]}
{"id": "C51", "title": "Truncated files are rejected", "statement": "Loading any proper prefix of a file written by this library raises an error instead of returning a surface.", "quantifier": "every surface and every truncation point", "why_tests_cant": "every crash point during a write", "anchors": ["surfalize/file/sur.py:read_sur", "surfalize/file/sdf.py:read_sdf", "surfalize/file/tmd.py:read_tmd", "surfalize/file/sflz.py:read_sflz", "surfalize/file/al3d.py:read_al3d"]}
{"id": "C52", "title": "Reader dispatch", "statement": "Loading a path uses the reader of its (case-insensitive) suffix, or of format if given; if that fails, the file is recognised by its magic, independent of its name; errors are reported with the original exception; unknown files raise UnsupportedFileFormatError.", "quantifier": "all registries, files and outcome combinations of readers", "why_tests_cant": "combinatorial over readers failing", "anchors": ["surfalize/file/common.py:FileHandler.read"]}
{"id": "C53", "title": "Writer dispatch", "statement": "save uses format when given (overriding the suffix), else the suffix case-insensitively; unknown formats raise UnsupportedFileFormatError and missing ones ValueError, without touching the file.", "quantifier": "all paths/buffers and formats", "why_tests_cant": "over all strings", "anchors": ["surfalize/file/common.py:FileHandler.write", "surfalize/surface.py:Surface.save"]}
{"id": "C54", "title": "File magics are unambiguous", "statement": "No file can match the magic of two different readers, so magic detection does not depend on registration order.", "quantifier": "all files", "why_tests_cant": "over all byte strings", "anchors": ["surfalize/file/common.py:FileHandler.register_reader"]}
{"id": "C55", "title": "Buffers are left where they were", "statement": "Loading from / saving to a file-like buffer leaves its position where it was, whether or not the call succeeds, and the reader sees the data from that position.", "quantifier": "every buffer, position and outcome", "why_tests_cant": "every failure point", "anchors": ["surfalize/file/common.py:open_file_like", "surfalize/file/common.py:FileHandler.read"]}
{"id": "C56", "title": "FITS header parsing terminates", "statement": "read_header returns or raises for every byte string and never skips past a following HDU.", "quantifier": "every byte string", "why_tests_cant": "non-termination cannot be tested exhaustively", "anchors": ["surfalize/file/fits.py:read_header"]}
{"id": "C57", "title": "Text/grid importers recover the step size", "statement": "The step recovered from an xyz grid equals the spacing of the grid, and the heights are put at their grid position.", "quantifier": "all grids", "why_tests_cant": "for all sizes", "anchors": ["surfalize/file/xyz.py:read_xyz"]}
{"id": "C58", "title": "Filename templates parse deterministically", "statement": "A template made of literal separators and <name|type|prefix|suffix> tokens parses to exactly these tokens and separators (one more separator than tokens); unclosed or nested brackets and malformed tokens raise ParsingError.", "quantifier": "all template strings", "why_tests_cant": "over all strings", "anchors": ["surfalize/batch.py:FilenameParser.parse_template", "surfalize/batch.py:_Token.extract"]}
{"id": "C59", "title": "Filename extraction recovers the encoded values", "statement": "For a template with literal (non-special) separators, a filename assembled from the template with decimal values yields back exactly those values.", "quantifier": "all templates and values", "why_tests_cant": "over all names and values", "anchors": ["surfalize/batch.py:FilenameParser.construct_regex", "surfalize/batch.py:FilenameParser.extract_from"]}
{"id": "C60", "title": "Batch registration", "statement": "Registering the same parameter twice raises BatchError; every other registration sequence is accepted and recorded in call order; operations may repeat; inplace is always forced.", "quantifier": "all registration sequences", "why_tests_cant": "over all histories", "anchors": ["surfalize/batch.py:Batch._add_step", "surfalize/base.py:batch_method"]}
{"id": "C61", "title": "Batch execution equals direct execution", "statement": "execute() yields exactly one row per file with the values obtained by loading that file and applying the registered steps by hand, in order (or all operations first if preserve_chaining_order=False), independent of multiprocessing and of the other files; on_file_complete is called once per file.", "quantifier": "all files, steps and thread schedules", "why_tests_cant": "over all schedules", "anchors": ["surfalize/batch.py:_task", "surfalize/batch.py:Batch.execute"]}
{"id": "C62", "title": "Batch error policy", "statement": "With ignore_errors=True a failing calculation yields NaN in exactly the affected columns and nothing else changes; with ignore_errors=False the first failing calculation is raised.", "quantifier": "all failure patterns", "why_tests_cant": "over all subsets of failing steps", "anchors": ["surfalize/batch.py:_Parameter.calculate_from", "surfalize/batch.py:_CustomParameter.calculate_from"]}
{"id": "C63", "title": "Batch columns never collide", "statement": "Two accepted steps never write the same column, and no step overwrites the file column.", "quantifier": "all registered steps", "why_tests_cant": "over all names", "anchors": ["surfalize/batch.py:Batch._add_step", "surfalize/batch.py:_Parameter.calculate_from"]}
{"id": "C64", "title": "Additional data joins by file", "statement": "Merging additional data keeps exactly the rows whose file occurs in it and adds its columns, without changing measured values.", "quantifier": "all result tables", "why_tests_cant": "over all tables", "anchors": ["surfalize/batch.py:Batch._construct_dataframe", "surfalize/batch.py:Batch.execute"]}
{"id": "C65", "title": "CLI applies operations in a fixed order", "statement": "The command line applies the requested operations in the documented fixed order, independent of the order of the options, and rejects mutually exclusive options.", "quantifier": "all option sets", "why_tests_cant": "2^n option combinations", "anchors": ["surfalize/cli.py:perform_surface_operations"]}
{"id": "C66", "title": "roughness_parameters", "statement": "roughness_parameters(list) returns a dictionary with exactly the requested keys, each equal to the direct call, and raises ValueError if some name is unknown.", "quantifier": "all parameter lists", "why_tests_cant": "over all lists", "anchors": ["surfalize/base.py:BaseTopography.roughness_parameters"]}
{"id": "C67", "title": "Oblique profiles connect the requested points", "statement": "get_oblique_profile(x0,y0,x1,y1) samples the surface along the segment from (x0,y0) to (x1,y1).", "quantifier": "all segments", "why_tests_cant": "over all segments", "anchors": ["surfalize/surface.py:Surface.get_oblique_profile"]}
{"id": "C68", "title": "rotate keeps only valid points", "statement": "rotate(angle) returns a non-empty rectangle inside the rotated image; rotate(0) returns the surface unchanged.", "quantifier": "all sizes and angles", "why_tests_cant": "rounding over all sizes", "anchors": ["surfalize/surface.py:Surface.rotate"]}
{"id": "C69", "title": "Functional parameters do not depend on the height reference", "statement": "Adding a constant to all heights shifts Smc by that constant and leaves Sk, Sdc, Sxp, Vm, Vv, Vmp, Vmc, Vvv, Vvc, Spkx and Svkx unchanged.", "quantifier": "all complete surfaces/profiles, all constants, all material ratios, any number of classes >= 4", "why_tests_cant": "ranges over all height data and all offsets", "anchors": ["surfalize/abbottfirestone.py:AbbottFirestoneCurve"]}
{"id": "C70", "title": "Command line conversion", "statement": "`surfalize convert` on a directory converts every readable file exactly once into its own output of the requested format; on a single file it writes exactly the named file in the format of its name; an unsupported format converts nothing and --compressed is rejected for other formats than .sur.", "quantifier": "all directory listings, output paths, formats and flags", "why_tests_cant": "ranges over all sets of file names and option combinations", "anchors": ["surfalize/cli.py:convert", "surfalize/cli.py:convert_file"]}
{"id": "C71", "title": "Directories are collected completely", "statement": "Batch.from_dir/add_dir list every file of the directory that Surface.load supports exactly once and nothing else.", "quantifier": "all directory listings and extension lists", "why_tests_cant": "ranges over all file names; the supported extensions are an unordered set", "anchors": ["surfalize/batch.py:Batch.from_dir", "surfalize/batch.py:Batch.add_dir"]}
{"id": "C72", "title": "Root mean square slope of a profile", "statement": "Rdq is the root of the mean squared slope between neighbouring points: never negative, zero exactly for a constant profile, |b| on a ramp of slope b, unchanged by an offset, multiplied by |k| when the heights are, and at most the largest slope.", "quantifier": "every profile of at least two points and every step", "why_tests_cant": "for all data", "anchors": ["surfalize/profile.py:Profile.Rdq"]}
{"id": "C73", "title": "The angular power spectrum conserves power and Std is its strongest direction", "statement": "For every complete surface and every positive angle step, the angular power spectrum lists the angles 0, step, 2*step, ... below 180 degrees and the powers assigned to them are non-negative and add up to the number of points times the sum of squared deviations from the mean height (nothing is lost or counted twice). Std is one of these angles, no angle has more power, and for a single plane wave it is the multiple of the step just below the direction of the wave vector.", "quantifier": "all complete surfaces, all step sizes, all angle steps, all plane waves below the Nyquist frequency", "why_tests_cant": "a missing half-plane, a wrong folding at 180 degrees or a bin that drops its edge shows only for particular directions and grid sizes", "anchors": ["surfalize/fourier.py:FourierTransform._angular_spectrum", "surfalize/surface.py:Surface.Std"]}
{"id": "C74", "title": "Instrument files are decoded exactly as they are laid out", "statement": "If Surface.load accepts a PLU, ZMG, OS3D, NMS, VK4 or OPD file, the surface has the stored numbers of rows and columns, height (i, j) is the number stored for row i and column j in the height block (converted with the stored scale, unmeasured points as NaN) and the steps are the stored steps; and every file that contains its header and its height block is accepted.", "quantifier": "all files, all contents of every header field, all sizes", "why_tests_cant": "a test file fixes one size and one header; a swapped axis or field, a wrong offset or a wrong item size shows only for others", "anchors": ["surfalize/file/plu.py:read_plu", "surfalize/file/zmg.py:read_zmg", "surfalize/file/os3d.py:read_os3d", "surfalize/file/nms.py:read_nms", "surfalize/file/vk.py:read_vk4", "surfalize/file/opd.py:read_opd"]}
{"id": "C75", "title": "A cut instrument file is never read as a surface", "statement": "If a PLU, ZMG, OS3D, NMS, VK4 or OPD file is cut at any byte inside its header or height block, loading it raises instead of returning a surface; bytes behind the blocks that are read never change the result.", "quantifier": "all files, all cut points, all trailing bytes", "why_tests_cant": "one cut point per test", "anchors": ["surfalize/file/plu.py:read_plu", "surfalize/file/zmg.py:read_zmg", "surfalize/file/os3d.py:read_os3d", "surfalize/file/nms.py:read_nms", "surfalize/file/vk.py:read_vk4", "surfalize/file/opd.py:read_opd"]}
{"id": "C76", "title": "Image layers do not disturb the heights and hold the stored pixels", "statement": "Loading a PLU, OS3D, NMS, VK4 or OPD file with image layers gives the same heights and steps as without, and the layers hold the stored pixels at the same (row, column) as the heights.", "quantifier": "all files, all sizes and image contents", "why_tests_cant": "for all sizes", "anchors": ["surfalize/file/plu.py:read_plu", "surfalize/file/os3d.py:read_os3d", "surfalize/file/nms.py:read_nms", "surfalize/file/vk.py:read_vk4", "surfalize/file/opd.py:read_opd"]}
{"id": "C77", "title": "NMS heights lie in the range the file states", "statement": "An NMS file states the lowest and the highest height; all heights of the surface lie between them.", "quantifier": "all NMS files", "why_tests_cant": "for all codes and ranges", "anchors": ["surfalize/file/nms.py:read_nms"]}
{"id": "C78", "title": "MetroPro files are read as written", "statement": "A MetroPro (.dat) file of one of its three kinds that holds the intensity values and phase codes it announces and whose header texts decode is read, and the surface has the announced size, at every point the code times scale factor times wavelength times obliquity over the resolution in micrometres (missing where the code is the invalid marker), and the stated lateral resolution as steps; the intensity images are the stored ones and reading them does not change the heights; cut-off files are refused and bytes behind the data ignored.", "quantifier": "all .dat files of any length", "why_tests_cant": "over all byte strings and floats", "anchors": ["surfalize/file/dat.py:read_dat", "surfalize/file/dat.py:LAYOUT_HEADER"]}
{"id": "C79", "title": "The encoding named by the caller decides how texts are decoded and nothing else", "statement": "Heights and steps read from a binary file do not depend on the encoding named; a file whose texts are in the named encoding is readable.", "quantifier": "all PLU, NMS, OS3D, ZMG, VK4 and MetroPro files, all encodings", "why_tests_cant": "over all byte strings", "anchors": ["surfalize/file/common.py:decode", "surfalize/file/dat.py:read_dat", "surfalize/file/vk.py:read_vk4"]}
{"id": "C80", "title": "Gwyddion files hold a tree that is read back", "statement": "Every tree of named, typed components (booleans, characters, 32- and 64-bit integers, doubles, texts, containers, and arrays of these) written in the Gwyddion format is read back as the same tree whatever follows it in the file; reading ends on every file; a file cut before the announced end of its container is refused.", "quantifier": "all component trees of any depth and size, all byte strings, both text encodings", "why_tests_cant": "over all trees, files and cut points", "anchors": ["surfalize/file/gwy.py:Container", "surfalize/file/gwy.py:Component", "surfalize/file/gwy.py:read_null_terminated_string"]}
{"id": "C81", "title": "The surface of a Gwyddion file is its height channel", "statement": "Of the numbered channels the reader takes the one whose z unit is a length; of several those whose title speaks of height or topography if there are such, and of these the one with the lowest number. The heights are its values in micrometres, missing where its mask is set, with the announced extent divided by the number of points as steps; its channels without a z unit and of the same size and lateral unit become image layers under their titles. The result does not depend on anything but the file.", "quantifier": "all Gwyddion containers, all orders in which Python may walk through a set, with and without image layers", "why_tests_cant": "over all containers, floats and iteration orders", "anchors": ["surfalize/file/gwy.py:read_gwy", "surfalize/file/gwy.py:guess_height_channel", "surfalize/file/gwy.py:get_image_related_layer_keys"]}
{"id": "C82", "title": "X3P files: the surface is what main.xml announces", "statement": "An X3P file is read exactly if its archive holds main.xml with the stored checksum, the document announces a surface of one layer with sizes, increments and a data type, and the point data have exactly that many values; the heights are then the stored values and the steps the x and y increments, in micrometres, row by row.", "quantifier": "all byte strings, all archives, all XML documents, all four data types, both NumPy major versions", "why_tests_cant": "over all documents and point data, and over what the zip, XML and number libraries may return", "anchors": ["surfalize/file/x3p.py:read_x3p"]}
{"id": "C83", "title": "X3P metadata and checksums", "statement": "The metadata of an X3P surface hold, for every path below Record2, the last non-blank text with that path, trimmed, dates parsed as dates, and nothing else; a file whose contents do not have the stored checksums is refused.", "quantifier": "all documents, all archives, all contents of the checksum file", "why_tests_cant": "over all XML trees and all corruptions", "anchors": ["surfalize/file/x3p.py:xml_to_flat_dict", "surfalize/file/x3p.py:read_x3p"]}
{"id": "C84", "title": "PLUX files: heights, picture and metadata", "statement": "A PLUX archive is read exactly if it holds the heights and an index.xml with date, size and steps; the heights are the first values of LAYER_0.raw row by row, the steps those of the document; with image layers the picture is added, grey if its channels agree, and the heights do not change; the metadata hold the date and the trimmed values of six items of the INFO section. A missing picture or comment does not prevent reading, and the loaded surface can be edited.", "quantifier": "all byte strings, archives and XML documents, with and without image layers", "why_tests_cant": "over all documents and contents", "anchors": ["surfalize/file/plux.py:read_plux", "surfalize/base.py:__setitem__"]}
{"id": "C85", "title": "Extracting a measurement collection", "statement": "extract_cag writes every VK measurement of a CAG archive into the target folder under the file name of its original path as listed in the archive's index; other files of the folder stay as they are, nothing is written outside the folder, and no measurement is lost.", "quantifier": "all archives, all index texts, all target folders and their contents", "why_tests_cant": "over all archives, including hostile ones, and all index texts", "anchors": ["surfalize/file/cag.py:extract_cag", "surfalize/file/cag.py:parse_idx_table"]}
{"id": "C86", "title": "Dominant period of a profile", "statement": "Profile.period returns the period of the strongest oscillation of the profile: the length of the profile over a whole number of oscillations, between two pixels and the number of pixels, proportional to the step and unaffected by scaling the heights or by adding a constant height.", "quantifier": "all profiles, steps, amplitudes, phases, offsets and numbers of oscillations", "why_tests_cant": "over all profiles and frequencies; the thresholds only show at their edges", "anchors": ["surfalize/profile.py:Profile.period", "surfalize/mathutils.py:get_period_fft_1d"]}
{"id": "C87", "title": "Plots put every point at its place", "statement": "In the height map, the image-layer plot, the profile plot, the autocorrelation plot and the 3d mesh every measured value is drawn at its position in micrometres (lag, for the autocorrelation), and what is drawn is the layer asked for.", "quantifier": "all surfaces, profiles, layers, steps and positions", "why_tests_cant": "over all shapes and steps", "anchors": ["surfalize/surface.py:Surface.plot_2d", "surfalize/surface.py:Surface.plot_autocorrelation", "surfalize/autocorrelation.py:AutocorrelationFunction.plot_autocorrelation", "surfalize/profile.py:Profile.plot_2d", "surfalize/plotting.py:plot_3d"]}
{"id": "C88", "title": "Fourier plot", "statement": "The plot of the Fourier transform shows the strength of every wave at its spatial frequency, and with fxmax or fymax exactly the frequencies between -fmax and fmax.", "quantifier": "all surfaces, steps, limits, windows and scalings", "why_tests_cant": "over all shapes (even and odd) and all limits", "anchors": ["surfalize/fourier.py:FourierTransform.plot", "surfalize/surface.py:Surface.plot_fourier_transform"]}
{"id": "C89", "title": "Level of detail keeps the extents", "statement": "A 3d plot with a reduced level_of_detail shows the same area as the full one.", "quantifier": "all surfaces and levels", "why_tests_cant": "over all sizes and levels", "anchors": ["surfalize/plotting.py:plot_3d"]}
{"id": "C90", "title": "The surface of a FITS file", "statement": "Reading a FITS file of a height map returns the numbers of the extension HEIGHTS times the height factor, in micrometres, NaN where the extension MASK is 0, steps from DELTAX and DELTAY in their units, the other extensions as images under their own names, and all header entries as metadata.", "quantifier": "all well-formed FITS files: any number of header blocks, cards, extensions, item types and sizes", "why_tests_cant": "over all files, item types and units", "anchors": ["surfalize/file/fits.py:read_fits", "surfalize/file/fits.py:parse_header_block", "surfalize/file/fits.py:convert_dtype"]}
{"id": "C91", "title": "The Abbott plots show the height distribution", "statement": "The plot of the Abbott-Firestone curve draws bars that tile the range of heights from top to bottom, each as long as the share of the points in its class, so that the bars down to a height together show the material ratio there and all bars 100 %; behind them runs the material ratio curve. The visual parameter study draws the equivalent line between 0 and 100 % and triangles of the areas Sak1 and Sak2.", "quantifier": "all surfaces without missing points, any number of bars and classes", "why_tests_cant": "over all height distributions and class counts", "anchors": ["surfalize/abbottfirestone.py:AbbottFirestoneCurve.plot", "surfalize/abbottfirestone.py:AbbottFirestoneCurve.visual_parameter_study", "surfalize/base.py:plot_abbott_curve"]}
{"id": "C92", "title": "The report prints the right quantities in the right units", "statement": "The report command writes, for every readable file, a table next to it under the file's name with .pdf appended: never over another file, two reports never share a name, and reports are not picked up as measurements by the next run. The table lists the surface's own parameters with three decimals, off by at most half of the last, and the unit printed with a parameter is its dimension: expressing all lengths in another unit changes exactly the values printed with a length unit, by that factor.", "quantifier": "all surfaces, all unit factors, all parameters of the unit table, all directories and file names", "why_tests_cant": "over all surfaces and unit changes; numerical routines taken by contract", "anchors": ["surfalize/cli.py:report", "surfalize/cli.py:PARAMETER_UNITS", "surfalize/surface.py:Surface", "surfalize/autocorrelation.py", "surfalize/fourier.py", "surfalize/abbottfirestone.py"]}
{"id": "C93", "title": "Parameters read from file names end up in the right rows and columns", "statement": "A file name template adds one column per parameter to a result table, directly behind the column with the file names and in the order of the template; each row gets the values encoded in that row's own file name, and no other column changes. It does not matter whether the template is registered on the batch before execution or applied to the returned result, applying it again changes nothing, templates with different parameters can be applied in either order, and the saved spreadsheet is the returned table.", "quantifier": "all templates, tables, file names, files of a batch and schedules of its threads", "why_tests_cant": "over all combinations of templates, tables with any columns and completion orders; collisions between parameter and column names are rare in tests", "anchors": ["surfalize/batch.py:FilenameParser.extract_from", "surfalize/batch.py:FilenameParser.apply_on", "surfalize/batch.py:Batch._construct_dataframe", "surfalize/batch.py:Batch.execute", "surfalize/batch.py:Batch.extract_from_filename"]}
{"id": "C94", "title": "A batch result is a table of its own", "statement": "The object returned by execute behaves like one private table: reading, assigning and extracting columns see exactly what was done to it, tables that existed before are never changed through it and cannot change it, a failing extraction changes nothing, and every other attribute is that of the table.", "quantifier": "all histories of assignments, extractions and changes of other tables", "why_tests_cant": "aliasing and stale references appear only for particular orders of operations", "anchors": ["surfalize/batch.py:BatchResult"]}
{"id": "C95", "title": "A batch covers the files and the methods it was given", "statement": "A Batch processes the files handed to its constructor, from_dir, add_files and add_dir in that order and as often as they were given, and nothing else; every method of Surface that is marked for batches (own or inherited, as Surface itself resolves it) can be called on the Batch with the signature shown there, arguments reaching the method of Surface as given and removed parameters with their fixed value; the Batch's own methods are never hidden.", "quantifier": "all sequences of constructor/add_files/add_dir calls with arbitrary objects, all class hierarchies, all positional and keyword arguments", "why_tests_cant": "histories, hierarchies and argument lists are unbounded; mistakes show up only for particular combinations (a positional argument behind a removed parameter)", "anchors": ["surfalize/batch.py: Batch.__init__, Batch._create_batch_method, Batch.from_dir, Batch.add_files, Batch.add_dir, _task", "surfalize/base.py: batch_method", "surfalize/utils.py: is_list_like"]}
{"id": "C96", "title": "The tables of formats hold what the format modules declare", "statement": "Whatever sequence of readers and writers registers itself, a suffix or magic is served by the function of the last registration that names it; the registrations of the library do not replace each other and yield exactly the tables Surface.load and save use; every writable suffix is readable by the same format; the suffix groups are non-empty, sorted, cover every suffix once, and put two suffixes together exactly when they have the same reader.", "quantifier": "all sequences of registrations (single values or lists of suffixes and magics), all suffixes", "why_tests_cant": "registrations are made at import time and by users in unbounded number; the partition property ranges over all tables", "anchors": ["surfalize/file/common.py: FileHandler.register_reader, register_writer, get_supported_formats_read, get_supported_formats_write, get_reader_suffix_groups", "surfalize/file/__init__.py"]}
{"id": "C97", "title": "What accompanies the heights: metadata, pictures, extents", "statement": "A loaded surface has exactly the heights, pixel sizes, metadata and image layers of the file and its width and height are (columns-1)*step_x and (rows-1)*step_y; after any sequence of in-place operations, assignments and edits the metadata and image layers are still there and the extents fit the heights; in-place and copying versions of an operation agree; row and column profiles have the length of the surface and profile operations keep length = (points-1)*step; the warning about different pixel sizes appears exactly if they differ by 1e-6 um or more. (Not guaranteed: copying operations keep metadata or image layers; image layers fit the heights after crop/zoom/rotate; an oblique profile has length (points-1)*step; the warning is scale independent.)", "quantifier": "every surface, metadata, set of image layers and every finite history of operations, failing or not", "why_tests_cant": "any history of operations on any surface; a test fixes one", "anchors": ["surfalize/surface.py:Surface.__init__", "surfalize/surface.py:Surface._set_data", "surfalize/surface.py:Surface._with_data", "surfalize/surface.py:Surface.from_raw_surface", "surfalize/surface.py:Surface.get_image_layer_names", "surfalize/surface.py:Surface.get_oblique_profile", "surfalize/utils.py:approximately_equal", "surfalize/image.py", "surfalize/profile.py:Profile"]}
{"id": "C98", "title": "ASCII SDF files of other programs", "statement": "Every ASCII SDF file with a complete header (lines in any order, any blanks, LF or CRLF), NumProfiles*NumPoints points separated by any white space and any trailer loads: heights are number*Zscale in micrometres row by row, BAD points are not measured, steps are Xscale and Yscale in micrometres and the metadata are the typed header fields with CreateDate/ModDate as dates; a wrong number of points, an unknown field or data type is refused; every valid date text is read exactly and only existing dates are read. (Not guaranteed: trailer metadata such as OperatorName are found; empty header lines or empty/zero dates are accepted; a missing field is reported as corruption; trailing non-numeric text and negative sizes are noticed.)", "quantifier": "every header, every list of points, every spacing and trailer", "why_tests_cant": "arbitrary texts", "anchors": ["surfalize/file/sdf.py:read_ascii_sdf", "surfalize/file/sdf.py:read_sdf", "surfalize/file/sdf.py:ASCII_HEADER_TYPES"]}
{"id": "C99", "title": "Digital Surf files of any program", "statement": "Loading a .sur file that any program wrote gives exactly the points of the file: ny rows of nx 16 or 32 bit integers behind header, comment and private zone, stored plainly or zipped, each times the z step in the unit of the header, in micrometres, plus the offset; a stored minimum - 2 is a gap when the header says so. Only surfaces, Gwyddion's mislabelled surfaces and RGB + intensity surfaces are accepted, never series. Asking for image layers does not change heights; the layers are the pixels of the four objects behind the heights, grey exactly when the three colours agree everywhere. The metadata are the header's fields. The same surface expressed in another unit loads as the same heights.", "quantifier": "every file (all bytes, shapes, zlib streams, comments, encodings, units), with and without image layers", "why_tests_cant": "ranges over all files of other programs, not only files this library wrote", "anchors": ["surfalize/file/sur.py:read_sur", "surfalize/file/sur.py:read_sur_object", "surfalize/file/sur.py:read_compressed_data", "surfalize/file/sur.py:get_surface", "surfalize/file/sur.py:is_gwyddion_export"]}
{"id": "C100", "title": "Height parameters in floating point", "statement": "The numbers actually returned are doubles. Whatever order numpy adds in, mean, centred heights, Sa, Sq, Sv, Sp, Sz (and Ra, Rq of a profile) are finite and differ from the values of the formulas in exact arithmetic by at most a small multiple of 2^-53 times the largest height; the multiple grows with the depth of the additions only. Sa, Sq, Sv are never negative. zero() makes the lowest heights exactly 0, no other height 0, none negative, and keeps the order of heights. A flat surface has Sa = Sq = Sp = 0.", "quantifier": "every array of up to 2^45 finite doubles of magnitude up to 2^100, and every summation order (tree of additions)", "why_tests_cant": "rounding depends on every value, on the array's layout and on the machine's vector instructions; no set of examples bounds it", "anchors": ["surfalize/surface.py:Surface.height_parameters", "surfalize/profile.py:Profile.Ra", "surfalize/profile.py:Profile.Rq", "surfalize/base.py:zero", "surfalize/base.py:center"]}
{"id": "C101", "title": "Positions and pixels in floating point", "statement": "Positions in micrometres are doubles and are turned into pixels by divisions that round. Rounding never costs a pixel: crop with the positions of given columns and heights, as the package computes them (k times the step, width_um, height_um), is exactly the window of those pixels, and 0 … width_um, 0 … height_um gives the surface back; any other position goes to a nearest pixel. Profile extraction finds, for every double from 0 to below height_um (width_um), an existing row (column) within one step of it, the one exact arithmetic gives; an average_step of k steps is k pixels. zoom keeps a non-empty centred window of int(n/f)+1 points; factor 1 keeps everything.", "quantifier": "every surface up to 2^24 (crop: 2^50) points per side, every double step between 2^-500 and 2^500 micrometres, every double position and every finite factor of at least 1", "why_tests_cant": "a rounding error at one particular step and size makes the result wrong by a whole pixel; there are about 2^63 steps", "anchors": ["surfalize/surface.py:Surface.crop", "surfalize/surface.py:Surface.get_horizontal_profile", "surfalize/surface.py:Surface.get_vertical_profile", "surfalize/surface.py:Surface.zoom", "surfalize/profile.py:Profile.crop"]}
{"id": "C102", "title": "In-memory files in a batch: thread schedules do not matter, unless a buffer is shared", "statement": "Given a batch over FileInput objects (name, file-like object, format), executing it with the thread pool gives, for every interleaving of the threads at the level of single read/tell/seek calls, the same result for each file as the sequential execution, exactly one result per file, and leaves every buffer as the sequential execution leaves it, provided that no two FileInputs hold the same buffer object; no interleaving gets stuck. If every file's declared reader succeeds, the sequential execution leaves all buffers where they were, so that it may share buffers and be repeated. If two FileInputs share one buffer, the threaded execution can raise an exception where the sequential one succeeds.", "quantifier": "all readers that use read, tell and seek; all buffers and positions; all lists of FileInputs and formats; all interleavings of the calls of any number of threads", "why_tests_cant": "a test sees a handful of thread interleavings; the claim is about all of them at the granularity of single calls on the shared file object", "anchors": ["surfalize/batch.py: FileInput, _task, Batch._disptach_tasks", "surfalize/file/common.py: open_file_like, FileHandler.read, Layout.read", "surfalize/surface.py: Surface.load", "surfalize/file/tmd.py: read_tmd"]}
{"id": "C103", "title": "Example files: the listing and loading of repository examples", "statement": "Listing the examples gives exactly the files of the repository directory in its order, with their names and download addresses; listing with a format gives exactly those whose file name has that suffix. Loading an example gives the same surface as loading the same bytes from disk under the same name whenever the declared reader accepts them, also for names without a suffix, which are recognised by their magic. Without a connection both raise a ConnectionError, and an error message of the server in place of the listing raises a TypeError; nothing is listed or loaded silently. (Not guaranteed: the listing by format ignores case as loading does; a file under a wrong name, which can be loaded from disk, can be loaded as an example.)", "quantifier": "all answers of the server, all file names and addresses, all downloaded bytes, all readers", "why_tests_cant": "the server's directory and its error answers are not under the control of a test, and the agreement with loading from disk is about all bytes and names", "anchors": ["surfalize/examples.py: ExampleFile.load, list_examples", "surfalize/surface.py: Surface.load", "surfalize/file/common.py: FileHandler.read"]}
{"id": "C104", "title": "The depth of a grooved texture", "statement": "depth() lies between zero and the range of the heights, and its standard deviation is not negative; either both are defined or both are NaN. For a texture whose sampled lines are sinusoids of amplitude a and a period of at least P pixels, which the fit finds, it is never above the true depth 2 a and at least 2 a cos(pi (sampling_width + 2 / P)), at any position of the extrema; for a plane wave running along the columns with at least three periods the whole call succeeds with these bounds. Missing points, more profiles than lines, a single profile and a failing fit raise their documented errors; the direction it looks at always has a finite period. aspect_ratio is this depth over the period. (Not guaranteed: a number of lines that is a multiple of nprofiles - 1 is sampled; a fit that writes the same sinusoid with a negative period gives the same depth.)", "quantifier": "all surfaces, pixel sizes, numbers of profiles, sampling widths, results of the fit and orders of equal frequencies", "why_tests_cant": "the bounds are about every phase, period, amplitude and sampling width, and about every answer of the fit", "anchors": ["surfalize/surface.py: Surface.depth, aspect_ratio", "surfalize/mathutils.py: Sinusoid"]}
{"id": "C105", "title": "The refined orientation follows the texture", "statement": "orientation('fft_refined') of a texture whose extrema move by the same number of pixels from line to line is exactly the angle of that movement (the arctangent of pixels per line, or of its inverse when followed from column to column), given that the fit finds each line's sinusoid, the movement between sampled lines is at most a tenth of a period and the movement over the surface at least half a period, no matter how often the first extremum jumps by half a period; for a plane wave this is the angle of its crests. It always lies between -90 and 90 degrees. Missing points and unknown methods raise a ValueError, and 'fft' gives the Fourier orientation. (Not guaranteed: a texture exactly along the rows or columns has an orientation; periods below ten pixels work; pixels that are not square are taken into account.)", "quantifier": "all textures, sizes, pixel sizes, phases and results of the fit", "why_tests_cant": "it is about every slope, phase and number of jumps of the followed extremum", "anchors": ["surfalize/surface.py: Surface.orientation, _orientation_refined", "surfalize/mathutils.py: Sinusoid"]}
{"id": "C106", "title": "The picture of a 3d plot is complete", "statement": "plot_3d() of a static plot returns a picture that contains every pixel of the rendering that is not white, at the same height and all moved by the same number of columns: cropping removes only columns at the left and right that are white throughout, all of them. The colour bar, scaled to the height of the rendering in its proportions, follows the rendering after cbar_pad white columns without covering any of it. What is saved under save_to is the picture returned; an interactive plot returns None and refuses to save. (Not guaranteed: a negative cbar_pad is accepted and lets the colour bar cover the rendering.)", "quantifier": "all renderings, colour bars, sizes, paddings and options", "why_tests_cant": "it is about every pixel of every rendering", "anchors": ["surfalize/plotting.py: plot_3d", "surfalize/surface.py: Surface.plot_3d"]}
{"id": "C107", "title": "Levelling a step", "statement": "stepheight_level subtracts one plane of mean zero from the surface, the least-squares plane of the upper level: shape and gaps stay, the upper level has no slope left, and copy and inplace give the same heights. A step of height h on a tilted plane becomes two flat levels h apart, and stepheight is then h. Levelling a levelled copy again changes nothing. (Not guaranteed: a levelled copy keeps the division into levels of the surface it came from, so its stepheight can differ, even in sign, from that of a new Surface with the same heights and from the inplace variant.)", "quantifier": "all surfaces, with upper levels that do not lie on one line where a unique plane is needed", "why_tests_cant": "it is about every surface and every solution of the fit", "anchors": ["surfalize/surface.py: Surface.stepheight_level", "surfalize/surface.py: Surface._stepheight_get_mask", "surfalize/surface.py: Surface.stepheight", "surfalize/cache.py: CachedInstance.create_cache_entry"]}
{"id": "C108", "title": "Parameters are stable", "statement": "Two measurements of the same points whose heights differ by at most e have Sa, Sq, Sp, Sv and Sz within 2e of each other, Sdq within 3e divided by the smaller step, the surface area within 2 n m e times the sum of the steps, every height read off the material ratio curve within e (Sdc and Sxp within 2e), and for profiles Ra, Rq, Rp, Rv, Rt within 2e, Rz within 4e, Rdq within 2e/step. So writing a surface to .sur, .sdf, .al3d, .tmd or .sflz and reading it back changes Sa, Sq, Sp, Sv, Sz by at most twice what the file rounds a height by. (Not so for skewness: near flatness an arbitrarily small change can move it by more than 2.)", "quantifier": "all surfaces without missing points, all e, all steps", "why_tests_cant": "it is about all pairs of surfaces, and sorting, maxima and square roots between them", "anchors": ["surfalize/surface.py: Surface.Sa, Sq, Sp, Sv, Sz, Ssk, Sdq, surface_area", "surfalize/profile.py: Profile", "surfalize/abbottfirestone.py: AbbottFirestoneCurve.Sdc, Sxp", "surfalize/file"]}
{"id": "C109", "title": "Batch documentation", "statement": "The documentation shown for a method of a Batch is that of the Surface method without the entries of the parameters the Batch method does not take; all other entries and lines are there unchanged, whatever order Python takes the parameters in. (Holds as long as no removed name - self, inplace, return_trend - stands above an indented line outside its own entry. It does in filter: there, in half of the runs of Python, the documentation of endeffect_mode disappears.) Nothing is ever added.", "quantifier": "all documentations, parameter names and orders of the set", "why_tests_cant": "the order of a set of strings changes from one run to the next", "anchors": ["surfalize/utils.py: remove_parameter_from_docstring", "surfalize/batch.py: Batch._create_batch_method", "surfalize/base.py: batch_method, BaseTopography.filter"]}
{"id": "C110", "title": "rotate keeps only points of the surface", "statement": "Every pixel of the surface that rotate returns carries the value of the data at a point between their first and last row and column: none is filled in from outside. (Holds for surfaces at least as high as they are wide. A wider surface is read up to two thirds of a pixel above its first or below its last row; those pixels are 0, whatever the heights are.) A surface with missing points is not rotated at all.", "quantifier": "all sizes, angles and heights", "why_tests_cant": "sizes are rounded to whole pixels; whether a corner is outside depends on the angle", "anchors": ["surfalize/surface.py: Surface.rotate"]}
{"id": "C111", "title": "rotate keeps the lateral scale", "statement": "For square pixels, the width (columns times step) and the height of the rotated surface are right to within two pixels of the original, at every angle; rotate(0) keeps both steps exactly.", "quantifier": "all sizes, angles and steps", "why_tests_cant": "the steps are recomputed from rounded sizes", "anchors": ["surfalize/surface.py: Surface.rotate"]}
{"id": "C112", "title": "The bytes of a .sflz file", "statement": "A file written by Surface.save in the .sflz format consists of, in this order and without anything else: SFLZ, the version, the two steps, the flag for scaled heights with the two extremes, the number of blocks and of metadata entries, the compression; then the block of the heights and one block for each image, each with the length and text of its name, width, height, channels, type of numbers, length and contents. All numbers are stored lowest byte first, steps and extremes as doubles; heights as doubles, singles or scaled integers, row by row.", "quantifier": "all surfaces, images, types of numbers and compressions", "why_tests_cant": "a reader of today agrees with a writer of today whatever the bytes are; files outlive the release that wrote them", "anchors": ["surfalize/file/sflz.py: write_sflz, LAYOUT_HEADER, LAYOUT_LAYER_HEADER", "surfalize/file/common.py: Layout.write"]}
{"id": "C113", "title": "Reading .sflz files of any program", "statement": "A .sflz file, whoever wrote it, is read exactly if it begins with SFLZ and a whole head with a decodable version and a known compression, and is followed by as many whole blocks as it announces (one, if images are not asked for) whose names decode, whose types are known and whose unpacked contents have exactly the announced size (and integer heights where the scaled flag is set). The steps are the doubles at bytes 14 and 22; the heights are the numbers of a first block named topography, row by row: floats as they are, integers v as such or, with the flag, (v + smallest) / (2^bits - 1) * (hi - lo) + lo; every other block is an image under its name, of blocks with one name the last. Asking for images changes neither heights nor steps; bytes behind the last block are ignored; a file without compression that is cut anywhere before the end of the last block is refused.", "quantifier": "all byte strings, all decompressors", "why_tests_cant": "the files handed to the reader come from other programs and other versions; any byte may be anything", "anchors": ["surfalize/file/sflz.py: read_sflz, LAYOUT_HEADER, LAYOUT_LAYER_HEADER, decompress, ConvertCompression", "surfalize/file/common.py: Layout.read, Entry.read, FormatFromPrevious"]}
{"id": "C114", "title": "Parameters without a direction are the same for mirrored and turned samples", "statement": "Mirroring the measured area left to right or top to bottom, transposing it (with its two steps exchanged), turning it by quarter turns, or any sequence of these changes neither the height parameters, nor the material ratio curve and the functional parameters computed from it, nor the levels, the step height and the cavity volume, nor Sdq; the autocorrelation function is moved in the same way. A profile read from the other end has the same Ra, Rq, Rsk, Rku, Rt and Rdq, and the same Rp, Rv, Rz when the sections are equally long. (Not guaranteed: the developed area and Sdr are the same for the mirror image; Rz is the same when the sections are not equally long.)", "quantifier": "all areas of any size, heights with gaps where the parameter allows them, any sequence of mirrorings and turns; all profiles", "why_tests_cant": "unit tests use a few fixed surfaces in one orientation", "anchors": ["surfalize/surface.py: height_parameters, Sdq, surface_area, Sdr, stepheight, stepheight_level, cavity_volume, get_abbott_firestone_curve", "surfalize/autocorrelation.py: AutocorrelationFunction", "surfalize/abbottfirestone.py: AbbottFirestoneCurve", "surfalize/profile.py: Ra, Rq, Rsk, Rku, Rt, Rdq, Rp, Rv, Rz", "surfalize/mathutils.py: otsu_threshold"]}
{"id": "C115", "title": "Levels, step height, cavity volume and homogeneity do not depend on the unit of the heights", "statement": "Expressing the heights of a sample in another unit (multiplying all by a positive factor) leaves every point in the same class (upper or lower level), whether the sample is flat, stepped or has gaps, multiplies the threshold of a sample that is not flat, the two levels and the step height by the factor, and the cavity volume by the product of the factors of the heights and of the two steps; a parameter that is NaN stays NaN. The Gini coefficient behind homogeneity does not change. (Not guaranteed: homogeneity itself, because the cell values are rounded to eight decimals whatever their unit.)", "quantifier": "all heights of any number with or without gaps, all positive factors, all steps; for the refutation all surfaces with at least one whole cell and all parameters that are lengths", "why_tests_cant": "unit tests use a few surfaces in micrometres", "anchors": ["surfalize/surface.py: _stepheight_get_mask, _stepheight_get_upper_lower_median, stepheight, stepheight_level, cavity_volume, homogeneity", "surfalize/mathutils.py: otsu_threshold"]}
{"id": "C116", "title": "Cleaning and cutting do not depend on the unit or the zero point of the heights", "statement": "Expressing the heights of a sample in another unit and counting them from another zero (every height times k > 0, plus an offset) changes nothing in which points removing outliers (by mean or by median) and cutting off the highest and lowest percentages take away, and the points that stay are the rescaled ones; centering and setting to zero give the heights of the original times k, without the offset; inverting, cropping and zooming give the rescaled result of the original, with the same size and steps. Filling gaps and filtering (all four types, in place or not) do the same for every interpolation and every smoothing that follow the heights they are given: filled and low-pass heights are the rescaled ones, high-pass and band-pass heights those of the original times k, and the calls fail in the same cases. (Not guaranteed: that cleaning is finished after one run. Both cleaning steps, run again with the same settings on what is left, can take away further points.)", "quantifier": "all heights with or without gaps, all k > 0 and offsets, all numbers of deviations, percentages, boxes and factors for which the operation succeeds; all interpolations and smoothings that follow the heights", "why_tests_cant": "unit tests use a few surfaces in micrometres", "anchors": ["surfalize/base.py: remove_outliers, threshold, center, zero, invert", "surfalize/surface.py: crop, zoom, fill_nonmeasured", "surfalize/base.py: filter"]}
{"id": "C117", "title": "The height parameters of a profile follow the unit and do not see the zero point", "statement": "Expressing the heights of a profile in another unit and counting them from another zero (every height times k, plus an offset) multiplies Ra and Rq by |k|, leaves Rku, and leaves Rsk or changes its sign with k; for k > 0 it multiplies Rp, Rv and Rz, for every number of sampling lengths, and Rt by k, and fails exactly when the original fails. A profile turned upside down has the same Rz and Rt, and over one sampling length Rp and Rv change places. (Not guaranteed: over several sampling lengths Rp and Rv change places. Rv averages the sizes of the lowest points, so a section that lies above the mean line counts with the wrong sign.)", "quantifier": "all profiles, k, offsets and numbers of sampling lengths", "why_tests_cant": "unit tests use one profile in micrometres", "anchors": ["surfalize/profile.py: _sectioned_data, Ra, Rq, Rp, Rv, Rz, Rt, Rsk, Rku"]}
{"id": "C118", "title": "Cleaning a mirrored or turned sample gives the mirrored or turned result", "statement": "Mirroring a sample left to right or top to bottom, exchanging its rows and columns, turning it, or any sequence of these, and then removing outliers (by mean or median), cutting off the highest and lowest percentages, centering, setting to zero or inverting gives the same heights and gaps at the same physical points as doing it first and moving the result; an operation that fails on the one fails with the same error on the other.", "quantifier": "all samples with or without gaps, square or not, all sequences of motions, all numbers of deviations, methods and percentages", "why_tests_cant": "unit tests clean one surface in one orientation", "anchors": ["surfalize/base.py: remove_outliers, threshold, center, zero, invert"]}
