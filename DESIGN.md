# Formal model of fredericjs/surfalize in Rocq (Coq 8.16.1)

## Layout
* `properties.jsonl` – the English properties (C01 …).
* `rocq/theories/Model*.v` – executable / mathematical model, function by function, every definition
  cites the file and lines of /repo it models and its simplifications.
* `rocq/theories/Spec*.v` – small specifications written without the model's helpers.
* `rocq/theories/Proof*.v` – lemmas and proofs.
* `rocq/theories/Props*.v` – the property theorems with the lemmas belonging to them, and beside each the
  non-vacuity `Example`s (a concrete, non-trivial case meeting the hypotheses).
* `MANIFEST.json` – property -> theorems, `seeded/LOG.jsonl` – mutation log.

## Modelling conventions
* A height is `option R`: `None` is NaN (non-measured); `R` is Coq's classical reals, i.e. *ideal* arithmetic.
  Rounding, overflow, inf and signed zeros of IEEE doubles are not modelled in the numeric part.  A result that
  numpy would give as nan/inf (division by zero) is `None`.
* Integers are `Z`/`nat`, bytes are `Z` in 0..255 or `Byte`-lists, Python strings are lists of code points / `string`.
* A Python exception is a value (`Err ValueError`, …).  Loops become folds / structural recursion / explicit fuel with a
  distinguished out-of-fuel value.
* External numerics (scipy `gaussian_filter`, `griddata`, `lstsq`, `curve_fit`, zlib, chardet) are Section
  variables; hypotheses on them appear in the theorem statements.

## Plan per property
| id | model | proof |
|---|---|---|
| C01 | object = (heights, steps, extents, cache); method bodies = call trees calling further methods; memo wrapper of cache.py | memo evaluator = plain evaluator for coherent caches; coherence is invariant of every op; induction over histories |
| C02 | heap of buffers, objects = windows on buffers with writeable flag | invariant under no-shared-write; refutation by concrete history |
| C03 | same object model, `stepheight_level` cached mutator | k-fold application theorem for uncached ops; refutation for stepheight_level |
| C04 | every op as pure transformer + inplace/copy wrappers | per op, both wrappers |
| C05 | object model with extents | invariant by induction over histories |
| C06 | guard wrapper in both decorator orders | from C01's evaluator |
| C07-C09 | arrays as lists of rows, option arithmetic, slice index algebra | algebraic |
| C10-C15 | heights list + mean/min/median/std over R | real algebra, induction on lists |
| C16 | sigma formula with exp/ln/PI | Rtrigo/Rpower |
| C17-C19, C31 | numpy slice semantics, Python round (half-even), int() truncation | lia / lra |
| C20 | design matrix over R, lstsq as oracle with normal equations | orthogonality, uniqueness of residual |
| C21 | griddata nearest as oracle (argmin) | |
| C22, C23, C30 | height parameters over R | Cauchy-Schwarz, induction |
| C24, C25 | triangle areas over R | sqrt inequalities, sums; refutation of Sdr(flat)=0 |
| C26 | Gini over R | Abel-type inequality |
| C27 | index arithmetic of depth | refutation + exact condition |
| C28, C40 | Otsu on histogram counts | |
| C29 | array_split | lia/induction |
| C32-C36 | quantile curve, linear interpolation, polyfit closed form, trapezoid | monotonicity |
| C37, C38 | argmin, sort+interp | induction |
| C39 | sin identities, floor | |
| C41 | correlation sums over R, exact `fftconvolve`; spline and labelling by contract | symmetry, pair counting; Str <= 1 refuted by a 2x2 surface |
| C42, C73 | exact discrete Fourier transform, shifted axes, argsort by contract, angular binning | orthogonality of exponentials, Parseval; calibration refuted, exact values and error bound proved |
| C43 | unit table over strings | finite case analysis |
| C44 | struct codec over bytes | codec round trip |
| C45-C50 | headers + sample codecs | round trip; refutations |
| C51 | prefix of bytes | monotonic reader lemma |
| C52-C55 | dispatch over abstract readers with buffer positions | case analysis + induction over registry |
| C56 | fuel-indexed header loop | non-termination theorem; termination under END |
| C57 | xyz | refutation |
| C58, C59 | character automaton, token split, regex matcher for generated shape | induction |
| C60-C66 | batch step list, results as association lists, schedules as permutations | induction |
| C67, C68 | index arithmetic | refutation / conditions |
| C69, C70 | click option record, fixed operation order, conversion job list | case analysis; list of jobs characterised; refutations |
| C71 | glob over directory entries | permutation / no duplicates; refutation for overlapping extensions |
| C72 | Rdq from five-/seven-point differences over R | closed form for polynomials and lines |
| C74, C75, C76, C77 | PLU, ZMG, OS3D, NMS, VK4, OPD readers over byte strings; fields by offset in a separate specification (SpecReaders) | inversion of the layout reader into offsets, for every file; float error bound for NMS scaling; image defects refuted |
| C78 | MetroPro reader over byte strings, big-endian fields by offset (SpecDat) | inversion of the layout reader into offsets; relative error of a chain of products (ProofApx); missing intensity pixels refuted |
| C79 | the encoding argument of the readers of C74 and C78 | both results are functions of the file; MetroPro refuted by a latin-1 file |
| C80 | Gwyddion's component trees as a datatype (SpecGwy) with a writer; the recursive reader over byte strings | mutual induction over trees (reading back), over the fuel (termination), prefix argument (cut files) |
| C81 | the choice of the channel and its conversion over the tree read; set order and str.lower are parameters | equivalence with a relational specification (chosen, heights_of, layer_of); error bound with ProofApx; counterexamples computed |
| C82 | archives as lists of named contents, XML elements as trees; zip, md5, XML parsing, int, float and dates as parameters; the reader as written | equivalence with a relational specification (first element under a path, last member of a name); error bounds with Flocq |
| C83 | the flattening of Record2 and the checksum test | induction over XML trees with positions in document order |
| C84 | the PLUX reader over the same archives, NumPy's read-only arrays as a flag | equivalence with the specification; general theorems for the failures |
| C85 | archive members in order, the two regular expressions with greedy matching, POSIX path functions, the target folder as a dictionary | the regular expressions against a line-by-line specification by induction; invariant over the members; hostile archives by induction without hypotheses |
| C86 | scipy.signal.find_peaks with height, distance and prominence as scipy defines it; np.argsort by its contract; the exact DFT | the chosen peak is the most prominent; amplitudes of cosines from the geometric sums; a peak stands out by the value of its neighbours |
| C87 | figures as the arrays drawn and the rectangle given to Axes.imshow, vertices of the mesh, camera position | cells of n-1 steps divided by n hold their point: algebra over the reals |
| C88 | the shifted amplitude spectrum, its axes, and the crop by argclosest | the shifted index is the wave number up to multiples of n (periodicity of cosine); cropping by index arithmetic |
| C89 | ndimage.zoom by its output size | rounding error bounds |
| C90 | header cards, extensions, scaling | grammar of cards and blocks; induction over blocks and extensions; rounding error bounds |
| C91 | bars, curve and triangles handed to matplotlib | classes of np.histogram counted; cumulative sums; shoelace formula; a plane surface refutes the tiling |
| C92 | rows and paths of the report; every parameter of the unit table as a function of heights and steps | equivariance of each parameter under scaling of all lengths (least-squares uniqueness, linear interpolation, homogeneous autocorrelation and spectrum); induction over the files; decimal rounding |
| C93 | DataFrame as a list of named columns; extract_from, apply_on, _construct_dataframe and the end of execute | column insertion by induction over the template's tokens; row-wise agreement with C59; composition with C61 for the rows of a batch |
| C94 | BatchResult as an address in a heap of DataFrames; __getattr__ with a recursion limit | refinement of a single table over all histories of events |
| C95 | files as a list of entries under a history of calls; classes as association lists, the walk over the method resolution order; Python's argument binding | induction over histories, walk = resolution, binding commutes with removing parameters; class tables generated from the source text |
| C96 | registration as a fold of dictionary updates over declarations; grouping and sorting | induction; the library's declarations evaluated to the tables of ModelDispatch |
| C97 | the surface object with metadata, pictures and extents; operations in place and copying; the warning; profile lengths | invariant over histories of events; counterexamples for what copies lose |
| C98 | the ASCII SDF reader complete: sections, header lines, int(), strptime, np.fromstring, reshape with inferred size, the tag expression | induction over lines and points; files as concatenations of lines, points and white space |
| C99 | .sur of other programs: header with zones, plain and zipped points, image layers, metadata (sur.py 138-356) | objects described by byte offsets, inversion and completeness of the reader for every file; layers by composition; refutation of unit independence through the unconverted offset |
| C100 | height_parameters, mean, center, zero, Ra, Rq on doubles (surface.py 868-892, profile.py 307-331, base.py 200-239) | IEEE arithmetic from Flocq; np.sum is a relation allowing every tree of additions; backward error bound by induction on the tree, then propagated through mean, centring, squares and root against the real-number model; refutation for flat data |
| C101 | crop in units, profile crop, get_horizontal_profile, get_vertical_profile, zoom on doubles (surface.py 361-440, 662-720, profile.py 213-270) | indices computed in IEEE arithmetic from Flocq, selection of pixels as in C17-C19; round(fl(fl(k s)/s)) = k from the relative error; a quotient of doubles y < h is at most 1 - 2^-53, whose product with n stays below n; refutations by kernel evaluation |
| C102 | Readers as programs over read/tell/seek calls; a pool whose state is the memory of buffers (contents, position), the remaining program of every thread and the queue of results; a schedule is any list of thread numbers. Proved by an invariant (the remaining program of a thread, run from the present position of its own buffer, gives what the whole would have given) that holds for unshared buffers; the loader program is shown equal to the dispatch model of C55 and the TMD reader program to the reader of C49. The shared case is refuted by an explicit schedule. |
| C103 | the server's answer as a JSON value or none, the bytes behind every address or none; listing as list comprehensions that may raise; loading through the dispatch model on a buffer | induction over the directory; the buffer and the path case of the dispatch theorems (C52, C55); counterexamples for capital suffixes and wrongly named files |
| C104 | depth line by line: the guess, the fit as a parameter, the windows around the extrema as Python slices, medians, NaN for windows off the line, nanmean and nanstd | every kept value is a median of heights, so within their range; around its extrema a sinusoid is a cosine, which bounds the medians of the windows; the Fourier theorems (C42) give orientation, period and number of intervals of a wave |
| C105 | the first extremum of every sampled line, np.diff, the deviation from the median and the mean of the small deviations; the fit as a parameter | the first extremum is the crest position modulo half a period, so differences are D or D -+ half a period; the jumps are fewer than half of the lines, so the median is D and the filter keeps exactly the differences D |
| C106 | PIL images as a size and a pixel function; getbbox, crop, new, resize, paste; the rendering, matplotlib's colour bar and the resampling are parameters | the columns that are used form an increasing list whose head and last element are the borders of the bounding box; case analysis on the columns of the composite |
| C107 | the object is its heights plus the class mask that stepheight_level leaves in the cache of a copy; lstsq is a parameter with the contract lsq_contract | least squares over the points of the upper class; two planes that agree in three points off a line agree everywhere (determinant); the refuting surface by evaluating Otsu's cut over three occupied bins |
| C108 | no new model: ModelParams, ModelAfc and the file formats composed | sup-norm bounds: the mean, minimum, maximum, order statistics and linear interpolation are 1-Lipschitz, root mean squares by the triangle inequality of the Euclidean norm (induction), areas by the same inequality in three dimensions; the files by composing with the round trips C45, C47-C50; skewness refuted on [0,0,0,e] against [0,e,e,e] |
| C109 | re.sub of the pattern on character lists, leftmost match, greedy lines; the set of removed names as any order | a line keeps its place unless the name is in it and an indented line follows; induction over lines, entries and the order; the refutation on the docstring of filter by vm_compute |
| C110 | ndimage.rotate as a sampling contract over an arbitrary interpolating function; the kept window of rotate_data | the kept pixels lie within (height-1)/2, (width-1)/2 of the center; turning such an offset stays inside the data because the rectangle is the inscribed one; for wide surfaces the rounded aspect ratio breaks this: concrete counterexample |
| C111 | the steps computed at the end of rotate | number of kept pixels within two of the computed size; algebra over the rounded extents |
| C112 | write_sflz over the layouts; the format spelled out byte for byte beside it | one lemma for each kind of entry; induction over the image blocks |
| C113 | read_sflz over the layouts, with arbitrary decompressors; the format given by byte offsets beside it | equivalences layout by layout, block by block; induction over the blocks; images by induction from the end of the list |
| C114 | areas with motions given cell by cell; the existing models of the parameters | the points are permuted (bijection of the cells), each parameter depends on the multiset, or its double sum is reindexed; autocorrelation by moving the pairs of points at a lag (C41_lag); refutation by a single raised corner (C24_equality_partial) |
| C115 | heights with gaps times a factor; ModelStep, ModelHomog | histogram bins, counts and class variances of the scaled heights (PropsStepUnits); flat samples separately; refutation by a factor that makes every cell value smaller than half of the eighth decimal |
| C116 | heights with gaps times a positive factor plus an offset; ModelHeights, ModelGeom | mean, median, standard and median absolute deviation, sorting and slicing of the rescaled heights (PropsCleaning); interpolation and smoothing as parameters that follow the heights (PropsCleaning2); refutation of running twice = once on five and four points |
| C117 | profile heights times k plus an offset; ModelParams | the centred profile and its sections are multiplied by k (PropsProfileUnits); moments by powers of k; refutation of the exchange of Rp and Rv on four points |
| C118 | areas moved point by point (C114); ModelHeights | mean, deviations, median, sorted heights, minimum and maximum depend only on the collection of heights (PropsMirror, PropsCleanTurn); heights changed one by one keep the motion |

## Trusted base
1. Coq 8.16.1's kernel (no kernel check switched off, no plugin, no `Admitted`, no axiom of our own, no module type or functor).
2. The axioms of Coq's standard library listed below by `Print Assumptions`, and nothing else:
   `ClassicalDedekindReals.sig_forall_dec`, `ClassicalDedekindReals.sig_not_dec` and
   `FunctionalExtensionality.functional_extensionality_dep` (the classical reals), and `Classical_Prop.classic`
   (through Flocq's and the standard library's real analysis).
3. The faithfulness of the model, i.e. the definitions in `Model*.v` and the conventions below.
4. Contracts on external code.  They are hypotheses of the theorems (never axioms), and each is shown satisfiable by an
   instance in the same file.

### What is modelled, and how it is simplified
| part of /repo | model | not modelled / simplified |
|---|---|---|
| `cache.py`, decorators of `base.py`, `surface.py` state | ModelCache, ModelApi, ModelPyRepr (cache keys as text of the arguments), ModelHeap (shared buffers) | weak references, thread safety of the cache |
| arithmetic, equality, hash, slicing, in-place operations, filters (`surface.py`, `base.py`, `filter.py`) | ModelHeights, ModelGeom, ModelApi | ideal reals; `gaussian_filter` is an arbitrary linear shift-invariant function or parameter |
| `mathutils.py` | ModelMath | `curve_fit` result is an input |
| height/hybrid/profile parameters (`surface.py`, `profile.py`) | ModelParams, ModelStep, ModelHomog | ideal reals |
| `fill_nonmeasured`, detrending | ModelFill, ModelDetrend | `griddata(nearest)`: some nearest measured point; `lstsq`: some least-squares solution |
| `abbottfirestone.py` | ModelAfc | `argsort`: some sorting permutation (`sorter_ok`); `polyfit`: least-squares contract |
| `autocorrelation.py` | ModelAcf | exact `fftconvolve`; `map_coordinates(order=3)`: contract `interpolates` (mirrored cubic B-spline); `label`: contract `labels` (4-connected components) |
| `fourier.py` | ModelFourier | exact `fft2`; `argsort`: contract `sorts`; surfaces of at least 2x2 points; `arctan2` without signed zeros |
| `file/common.py` layouts, `struct` | ModelBytes | bit-exact IEEE (Flocq), little-endian x86-64, NaN payloads not tracked |
| units of `file/common.py` | ModelUnits | `str.lower` by contract `lower_ok`; table of mis-decoded micro signs taken over from CPython |
| `file/sur.py` | ModelSur | zlib abstract; negative (inferred) dimensions of foreign files; float→int32 cast as on x86-64 (−2^31 for NaN); image layers |
| `file/tmd.py`, `file/al3d.py`, `file/sdf.py` | ModelFormats | `repr`/`float()` of doubles by contract `float_text_ok`; `int()` only for digit strings; libm power of ten by contract `scale_of`; the data section of ASCII SDF left open |
| `file/sflz.py` | ModelSflz | dtypes unsigned/signed 1, 2, 4, 8 bytes and float32/64; three-dimensional heights; zlib/lzma by contracts `lossless`, `rejects_cut`; numpy's cast by contract `cast_ok` |
| `file/fits.py`, `file/xyz.py` | ModelFits, ModelFitsSurface | `float()`, `str.lower`, `str.capitalize` parameters; `int()` for signed digit strings; negative axes and NAXIS=2.0; integers beyond the doubles; np.loadtxt's result is the input |
| reader/writer dispatch of `file/common.py` | ModelDispatch | readers and writers arbitrary total functions; ASCII lower-casing; path in normal form; warnings as events; import order alphabetical |
| filename templates of `batch.py` | ModelTemplate | fragment of `re` the library generates, ASCII digits; `float()` not applied to the extracted text |
| `batch.py` execution | ModelBatch | Surface class = arbitrary method table over arbitrary state; thread pool = arbitrary interleaving of per-file threads, each with its own surface, and a results queue; custom functions depend only on the surface; pandas tables as lists of dictionaries (suffix clashes in merge raise MergeError: not modelled); `to_excel`, tqdm |
| `cli.py`, `Surface.roughness_parameters`, directory collection | ModelCli | click parsing: last option wins; plotting and PDF report |
| `file/plu.py`, `file/zmg.py`, `file/os3d.py`, `file/nms.py` | ModelReaders | byte strings with a position; dateutil.parser.parse and PIL.Image.open are parameters; metadata other than heights, steps and image layers; a negative number of OS3D points is an error; image layers of ZMG are not read by the code |
| `file/vk.py` | ModelVk | zipfile is a parameter; metadata only as far as it can fail; datetime validity modelled exactly |
| `file/opd.py` | ModelOpd | dateutil.parser.parse is a parameter; metadata other than Date, Time and the four numbers used only as far as they can fail; an `Image` block that is no array is an error; integers of the header as doubles (exact) |
| `file/dat.py` | ModelDat | metadata not returned; of an array of floats in the header the first is kept; texts as far as they can fail to decode |
| `file/gwy.py` | ModelGwy | type letters outside the format (which struct or numpy would take) are errors; only ASCII digits in channel numbers; integer height arrays and inferred (negative) dimensions are errors; the recursion limit, the iteration order of a set and str.lower are parameters |
| `file/x3p.py`, `file/plux.py`, `base.py` (`__setitem__` of one value) | ModelZip | zipfile, hashlib.md5, the XML parser, int, float, dateutil, str.lower and NumPy's major version are parameters (the record python); XML attributes, tails and namespaces are not modelled; negative (inferred) dimensions are errors |
| `file/cag.py` | ModelCag | the target folder exists (mkdir not modelled), POSIX paths (the slash separates), reading a file as text is a parameter, only those errors of open that depend on the name (empty, "..", a folder, a null character) |
| `Profile.period` (`profile.py`, `mathutils.py`) | ModelPeriod | ideal reals, exact FFT; np.argsort by contract; find_peaks as documented by scipy (plateaus, distance by priority, prominence) |
| plotting methods of `surface.py`, `profile.py`, `autocorrelation.py`, `fourier.py`, `plotting.py` | ModelPlot | arrays, extents, meshes and camera positions handed to matplotlib and pyvista; colours, labels, fonts and figure objects are not modelled; values of ndimage.zoom are a parameter |
| Abbott-curve plots (`abbottfirestone.py`) | ModelAbbottPlot | bars, lines and triangles as coordinates; ideal reals; labels, colours and the axes objects are not modelled |
| `cli.py` report, show | ModelReport | table rows and paths; the PDF, its pictures and fonts are not modelled; spline interpolation, labelling, sorts and polyfit by contract; depth, aspect ratio and homogeneity opaque; infinities are not formatted |
| `batch.py` FilenameParser.extract_from/apply_on, BatchResult, _construct_dataframe, execute | ModelTable | a cell that is not a str does not match; repeated column names not modelled; templates as in ModelTemplate |
| `batch.py` Batch.__init__, from_dir, add_files, add_dir, _create_batch_method; `base.py` batch_method | ModelCollect | pathlib's normalisation, docstrings and reading the Excel file not modelled; the directory listing is given |
| `file/common.py` FileHandler.register_reader/register_writer/get_reader_suffix_groups, `file/__init__.py` | ModelRegistry | import order of the modules is by name (pkgutil) |
| `surface.py` __init__, data setter, _set_data/_with_data, from_raw_surface, layer names; `base.py` 107-126; `utils.py` approximately_equal; `image.py`; `profile.py` constructor | ModelObject | metadata values are abstract; the array given to edits keeps its shape |
| `file/sdf.py` read_ascii_sdf (complete) | ModelSdfText | float() and strtod are parameters; int() without non-ASCII digits |
| `file/sur.py` read_sur with image layers and metadata | ModelSurLayers | zlib.decompress is a parameter; colour channels of different shapes raise (numpy may broadcast); enumerations stay integers |
| `surface.py` height_parameters, `profile.py` Ra, Rq, `base.py` center, zero on doubles | ModelFloatParams | the order of numpy's additions is a parameter; complete data only; Ssk and Sku are left out (C library pow) |
| `surface.py` crop, get_horizontal_profile, get_vertical_profile, zoom, `profile.py` crop: index computations on doubles | ModelFloatGeom | the mean over the selected rows is exact; int(average/2) and int((n-xn)/2) halve integers exactly |
| ModelFileInput.v | batch.py FileInput, _task (loading) and _disptach_tasks (thread pool) at the level of single buffer calls; common.py open_file_like and FileHandler.read on a buffer as a program; tmd.py read_tmd as a program. Not modelled: parallelism inside one call of a buffer method (each is atomic under the GIL), worker count of the pool (any thread may run at any time, which covers every number of workers), the sequential loop ending at the first exception. |
| ModelExamples.v | examples.py: ExampleFile (name, url, load), list_examples. Not modelled: HTTP status codes (the code does not look at them: the body is used whatever the status), __repr__, the content of the network. |
| ModelDepth.v | surface.py: depth, aspect_ratio, _orientation_refined, orientation (both methods). curve_fit and argsort are parameters. Not modelled: plotting inside depth, floating-point rounding, nprofiles < 0. |
| ModelRender.v | plotting.py: plot_3d from the screenshot on (crop_white, colour bar, composite); surface.py: Surface.plot_3d (save_to, interactive). Not modelled: pyvista's rendering, matplotlib's drawing in _create_colorbar, the resampling filter, alpha channels. |
| ModelLevelling.v | surface.py: stepheight_level, and stepheight, _stepheight_get_upper_lower_median with the cache entry that stepheight_level creates. Not modelled: rounding; the object that the method's own cache entry returns on a second call. |
| ModelDocs.v | utils.py: remove_parameter_from_docstring, and its use in batch.py: _create_batch_method. Not modelled: textwrap.dedent, inspect.cleandoc, the fixed text in front of the documentation. |
| ModelRotate.v | surface.py: rotate (steps and guard), with scipy.ndimage.rotate as a contract: output shape, sampled point of each pixel, cval outside. Not modelled: the spline itself (an arbitrary function of the point), rounding of sin and cos in doubles, the inplace branch (ModelApi). |
| angular-spectrum plots, `profile.show`, `_create_colorbar`, `__repr__` of ExampleFile, `utils.approximately_equal` | – | not modelled |

### `Print Assumptions` for every theorem of the manifest
<!-- assumptions begin -->
* **closed under the global context** (212 theorems): C01_surface_never_stale, C01_profile_never_stale, C01_surface_history, C01_profile_history, C01_key_identifies_call, C02_calls_current_when_unshared_partial, C02_view_is_readonly, C02_crop_refuses_assignment, C02_slice_edit_refuted, C02_crop_parent_edit_refuted, C03_uncached_inplace_repeats, C03_cached_inplace_never_repeats, C03_stepheight_level_inplace_refuted, C03_stepheight_level_copy_refuted, C04_inplace_agrees_with_copy, C05_extent_matches_shape, C06_surface_rejects_incomplete, C06_profile_rejects_incomplete, C06_surface_accepts_complete, C06_profile_accepts_complete, C09_selection, C26_cells_are_blocks, C27_fails_exactly_when_dividing, C27_otherwise_distinct_rows_partial, C27_refuted, C30_Rt_empty, C37_argclosest_empty, C43_contract_satisfiable, C52_declared_format, C52_by_magic, C52_damaged_file, C52_original_error, C52_missing_file, C52_sound, C52_name_independent, C52_renamed_file, C52_original_error_refuted, C52_example, C53_save, C53_rejects, C53_save_buffer, C53_save_load, C53_format_refuted, C53_case_refuted, C53_failed_save_refuted, C53_example, C54_magics_unambiguous, C54_order_independent, C55_declared_restores, C55_magic_restores, C55_buffer_needs_format, C55_other_source, C55_failure_refuted, C55_wrong_format_refuted, C55_position_refuted, C56_returns_iff, C56_never_returns_refuted, C56_extensions_terminate, C56_extensions, C56_skips_refuted, C56_example_extension, C58_parse, C58_sound, C58_brackets, C58_errors, C58_types, C58_stray_refuted, C58_parts_refuted, C59_roundtrip, C59_integers, C59_example, C59_dot_refuted, C59_overflow_refuted, C59_str_refuted, C59_names, C59_name_error, C59_literals, C59_dot, C60_operation, C60_parameter, C60_history, C60_accepted, C60_example, C60_custom_refuted, C60_roughness_refuted, C61_unchained, C61_pool, C61_pool_completes, C61_rows, C61_failure, C61_value, C61_values, C61_file_column, C61_example, C62_nan, C62_rest, C62_raise, C62_policies_agree, C62_custom_refuted, C62_other_errors_refuted, C63_plain_partial, C63_refuted, C64_table, C64_join, C64_count, C64_example, C64_shared_column_refuted, C65_order, C65_option_order, C65_exclusive, C65_example, C66_roughness_parameters, C66_default, C66_unchanged, C66_example, C70_directory, C70_file, C70_unsupported, C70_compressed, C70_example, C70_same_stem_refuted, C70_new_file_refuted, C70_output_names, C71_each_once, C71_default, C71_example, C71_overlap_refuted, C71_upper_case_refuted, C85_cag, C85_cag_all, C85_cag_inside, C85_cag_same_name_refuted, C85_cag_backslash_refuted, C85_cag_shift_refuted, C85_cag_index_refuted, C90_values, C90_example, C92_output, C93_table, C93_roundtrip, C93_idempotent, C93_two, C93_batch, C93_when, C93_example, C93_names_refuted, C93_lost_refuted, C93_merged_columns, C93_merge_no_files, C94_own, C94_items, C94_atomic, C94_attributes, C94_alias_refuted, C94_copy_refuted, C94_example, C95_constructor, C95_files, C95_accepted, C95_from_dir, C95_loaded, C95_files_example, C95_methods, C95_available, C95_call, C95_call_example, C95_generator_refuted, C95_single_refuted, C95_atomic_refuted, C95_names_refuted, C95_signature_refuted, C95_all_parameters_refuted, C96_tables, C96_groups, C96_library, C96_no_clash, C96_writable_readable, C96_groups_example, C97_grayscale, C98_dates, C102_load_is_dispatch, C102_distinct_buffers, C102_each_result, C102_sequential_is_a_schedule, C102_no_deadlock, C102_one_result_each, C102_sequential_sharing, C102_again, C103_list_all, C103_list_format, C103_list_offline, C103_list_message, C103_load_declared, C103_load_by_magic, C103_load_offline, C103_case_refuted, C103_wrong_name_refuted, C103_example, C103_malformed, C106_crop, C106_colorbar, C106_nothing_lost, C106_save, C106_example, C106_overlap_refuted, C109_removed, C109_untouched, C109_nothing_added, C109_example, C109_filter_refuted, C114_every_motion, C114_quarter_turn.
* **`sig_forall_dec`** (11 theorems): C09_int_index_rejected, C21_measured_unchanged, C21_shape, C21_complete_unchanged, C21_defined, C41_all_grids, C87_layers, C87_layers_refuted, C97_in_place, C97_profile_operations, C116_fill.
* **`functional_extensionality_dep`, `sig_forall_dec`** (229 theorems): C107_kept_classes_refuted, C107_variants, C07_surfaces, C07_mismatch, C07_other_type, C07_scalar, C07_reflected_sub, C07_gaps, C08_characterised, C08_reflexive, C08_symmetric, C08_not_transitive, C09_heights, C09_distance_partial, C09_negative_step_refuted, C10_center, C10_differences, C10_absorbs_offset, C11_zero, C11_exists_minimum, C11_absorbs_offset, C11_no_heights, C12_invert_partial, C12_gaps_refuted, C14_threshold, C14_rejects, C14_keeps_something, C14_zero_is_identity, C17_pixels, C17_units, C17_full_extent, C17_nested, C17_errors_partial, C17_negative_end_refuted, C18_zoom, C18_zoom_one, C18_profile_zoom, C19_horizontal_partial, C19_vertical_partial, C19_single_row_partial, C19_beyond_rejected, C19_upper_edge_refuted, C19_closest_refuted, C19_negative_refuted, C20_contract_satisfiable, C20_decomposition, C20_orthogonal, C20_best_fit, C20_absorbs_polynomial, C20_level_removes_planes, C20_idempotent, C20_defined, C20_profile_decomposition, C20_profile_orthogonal, C20_profile_absorbs_polynomial, C20_profile_idempotent, C21_nearest_interpolates, C21_nearest, C21_nearest_complete, C21_nearest_range, C21_contract_satisfiable, C21_example, C26_gini_range, C26_gini_positive, C26_gini_one_iff_equal, C26_gini_order, C26_gini_nan, C26_range, C26_disallowed, C26_is_number_partial, C26_equal_cells, C26_is_number_refuted, C26_no_cell, C26_example, C28_partition, C28_stepheight, C28_volume_nonneg, C28_volume_positive, C28_shift, C28_ideal, C28_missing_points, C28_levels_refuted, C29_sections, C29_rejects, C30_Rz_le_Rt, C30_single_section, C30_Rz_le_sum, C30_refinement, C30_example, C31_profile_crop, C31_profile_crop_units, C32_monotone, C32_ends, C32_clamped, C32_within_data, C32_defined, C32_missing_rejected, C32_is_material_ratio, C33_central_region, C33_core_height_nonneg, C33_ratios_range, C33_ratio_order_partial, C33_ratio_order_refuted, C33_sdc, C33_example, C34_nonneg, C34_monotone, C34_differences_nonneg, C34_ends, C34_flat, C34_void_value, C34_material_value_partial, C34_material_error, C34_total_void, C34_material_refuted, C35_nonneg_partial, C35_triangle_areas, C35_defined, C35_total_refuted, C35_area_values, C36_range, C36_inverse_partial, C36_monotone_partial, C36_monotone_refuted, C37_argclosest, C37_closest, C37_closest_member, C38_passes_through_nodes, C38_linear_between_neighbours, C38_within_bounds, C38_preserves_increasing, C38_preserves_decreasing, C38_clamped_left, C38_clamped_right, C38_order_irrelevant, C39_negative_period_refuted, C40_separates, C40_optimal, C40_shift, C40_levels_refuted, C40_few_bins, C41_lag, C41_shape, C41_symmetric, C41_centre, C41_missing, C42_argsort_example, C43_consistent, C43_metric, C43_micro_spellings_partial, C43_target_spelling_refuted, C43_mojibake_refuted, C43_unknown, C57_heights_partial, C57_step_refuted, C57_column_order_refuted, C57_rejects, C69_shift, C69_example, C69_ratios, C86_selection, C87_plot_2d, C87_plot_2d_near, C87_profile, C87_profile_length, C87_autocorrelation, C87_mesh, C89_full, C89_extent_partial, C89_extent_refuted, C91_bars, C91_cumulative, C91_plot, C91_flat_refuted, C91_study, C92_format, C92_files, C92_no_overwrite, C92_table, C92_precision_refuted, C92_all_files_refuted, C97_load, C97_warning, C97_agree_partial, C97_copy_drops, C97_profile_lengths, C97_example, C97_agree_refuted, C97_layers_fit_refuted, C97_warning_scale_refuted, C97_reader, C107_plane, C107_inplace_new, C107_level, C107_tilted_step, C107_repeat, C107_example, C108_curve, C108_Sdc, C108_sections, C114_functional, C114_levels, C114_autocorrelation, C114_sections, C114_example, C114_sections_refuted, C115_threshold, C115_classes, C115_levels, C115_stepheight, C115_cavity, C115_gini, C115_homogeneity_refuted, C116_threshold, C116_center, C116_zero, C116_invert, C116_crop, C116_zoom, C116_threshold_twice_refuted, C117_sections, C117_upside_down, C117_example, C117_upside_down_refuted, C116_methods, C118_threshold, C118_center, C118_zero, C118_invert.
* **`functional_extensionality_dep`, `sig_forall_dec`, `sig_not_dec`** (105 theorems): C08_hash_identical_partial, C08_hash_refuted, C13_exact, C13_monotone, C13_invalid, C22_range, C22_means, C22_inequalities, C22_Sq_zero_iff_flat, C22_shape, C22_defined, C22_example, C23_shift, C23_permutation, C23_scale, C23_invert, C24_lower_bound, C24_equality_partial, C24_flat, C24_equality_iff_flat_refuted, C24_plane_value, C24_plane_partial, C24_plane_refuted, C24_Sdr_nonneg, C24_Sdr_flat_refuted, C24_Sdr_two_wide_undefined, C25_nonneg, C25_zero_iff_flat, C25_shift, C25_scale, C25_plane, C30_Ra_Rq, C30_Rku, C39_normalisation_keeps_function, C39_first_extremum_partial, C39_first_peak_partial, C41_decay, C41_bounds, C41_defined, C41_str_refuted, C41_flat_refuted, C41_Sal, C41_Str, C42_Ssw_partial, C42_period_partial, C42_period_x_y_partial, C42_refuted, C42_error_partial, C42_along_x, C67_sampled_line, C67_start_partial, C67_refuted, C67_vertical_fails, C68_rectangle, C68_non_empty, C68_inside_partial, C68_rotate_zero_refuted, C68_not_identity, C72_definition, C72_zero_iff_constant, C72_ramp, C72_affine, C72_bound, C86_period, C86_period_range, C86_period_units, C86_period_dominant, C86_period_cosine, C86_period_scale_refuted, C86_period_weak_refuted, C86_period_offset_refuted, C86_period_incomplete, C87_camera, C87_target, C92_units, C92_units_covered, C92_percent, C97_oblique_length_refuted, C97_oblique_length, C108_height, C108_gradient, C108_area, C108_Sdr, C108_profile, C108_skewness_refuted, C110_inside, C110_near_partial, C110_turned, C110_guard, C110_example, C111_scale, C111_zero, C114_heights, C114_Sdq, C114_transposed_area, C114_profile, C114_mirror_area_refuted, C114_mirror_Sdr_refuted, C115_example, C116_outliers, C116_example, C116_outliers_twice_refuted, C117_averages, C118_outliers, C118_example.
* **`classic`, `functional_extensionality_dep`, `sig_forall_dec`, `sig_not_dec`** (230 theorems): C15_both, C15_highpass_is_difference, C15_bandpass, C15_inplace, C15_errors, C16_half_at_cutoff, C16_pixel_size_irrelevant, C16_monotone, C16_filter_kernel, C104_lines, C104_divides_refuted, C42_orientation_partial, C42_orientation_refuted, C44_roundtrip, C44_size, C44_int_range_partial, C44_single_range, C44_string_truncation_refuted, C44_string_unreadable_refuted, C44_truncated_header, C44_example, C45_roundtrip_partial, C45_flat, C45_flat_gaps_refuted, C45_one_step_refuted, C45_example, C46_refuted, C47_float, C47_uint, C47_flat, C47_signed_refuted, C47_gap_refuted, C47_layer_name_refuted, C47_example, C47_layer_names_distinct, C48_binary, C48_size_limit, C48_ascii_refuted, C48_example, C48_same_reader, C48_ascii_whole_refuted, C49_roundtrip_partial, C49_long_comment, C49_comment_refuted, C49_example, C50_roundtrip, C50_example, C51_sur_truncated, C51_tmd_truncated, C51_sdf_truncated, C51_al3d_truncated, C51_sflz_truncated, C51_sflz_default_refuted, C54_written_magic, C56_cut_header_refuted, C56_lost_heights_refuted, C56_example, C73_power, C73_Std, C73_Std_wave, C74_plu, C74_plu_reads, C74_zmg, C74_zmg_reads, C74_os3d, C74_os3d_reads, C74_nms, C74_nms_reads, C74_vk4, C74_vk4_reads, C74_vk4_micrometres, C74_opd, C74_opd_reads, C74_opd_duplicate_refuted, C74_vk67, C74_vk4_time, C75_plu_cut, C75_plu_trailing, C75_zmg_cut, C75_zmg_trailing, C75_os3d_cut, C75_os3d_trailing, C75_nms_cut, C75_nms_trailing, C75_vk4_cut, C75_vk4_trailing, C75_opd_cut, C75_opd_trailing, C76_plu_heights, C76_plu_image, C76_os3d, C76_os3d_no_image_refuted, C76_nms_heights, C76_nms_square, C76_nms_not_square_refuted, C76_vk4, C76_opd, C77_nms_scaling, C77_nms_range_refuted, C78_dat, C78_dat_reads, C78_dat_cut, C78_dat_trailing, C78_dat_images, C78_dat_micrometres, C78_dat_missing_pixel_refuted, C79_same_surface, C79_vk4_latin1, C79_dat_encoding_refuted, C80_gwy_terminates, C80_gwy, C80_gwy_read, C80_gwy_cut, C80_gwy_long_text_refuted, C81_gwy, C81_gwy_any_order, C81_gwy_layers, C81_gwy_layers_reads, C81_gwy_layers_any_order_partial, C81_gwy_micrometres, C81_gwy_stray_key_refuted, C81_gwy_untitled_refuted, C81_gwy_micro_sign_refuted, C81_gwy_leading_zero_refuted, C81_gwy_layers_order_refuted, C82_x3p, C82_x3p_micrometres, C82_x3p_integer_refuted, C82_x3p_short_refuted, C83_x3p_metadata, C83_x3p_checksum, C83_x3p_points_refuted, C84_plux, C84_plux_images, C84_plux_metadata, C84_plux_no_image_refuted, C84_plux_empty_value_refuted, C84_plux_edit_refuted, C88_plot, C88_crop_refuted, C88_small_refuted, C90_fits, C90_unity_refuted, C90_image_names_refuted, C90_cards_refuted, C98_load, C98_trailer, C98_count, C98_unknown, C98_type, C98_example, C98_blank_line_refuted, C98_missing_refuted, C98_junk_refuted, C98_no_date_refuted, C98_trailer_refuted, C98_negative_refuted, C99_heights, C99_reads, C99_layers, C99_images_heights, C99_no_layers, C99_metadata, C99_offset_unit_refuted, C99_same_reader, C99_example, C100_mean, C100_center, C100_height_parameters, C100_total, C100_profile, C100_zero, C100_flat_refuted, C100_left_to_right, C101_nearest, C101_pixel_position, C101_crop_box, C101_crop_full, C101_profile_crop, C101_horizontal, C101_single_row, C101_vertical, C101_beyond, C101_average_step_partial, C101_zoom, C101_zoom_one, C101_upper_edge_refuted, C101_average_step_refuted, C101_row_refuted, C102_tmd_reader, C102_shared_buffer_refuted, C102_shared_example, C102_distinct_example, C104_range, C104_accuracy, C104_defined, C104_wave, C104_errors, C104_period_finite, C104_aspect, C104_example_fit, C104_example, C104_negative_period_refuted, C105_rows, C105_columns, C105_wave, C105_range, C105_methods, C105_example, C105_example_sampling, C105_identical_rows_refuted, C105_vertical_refuted, C105_short_period_refuted, C105_pixel_shape_refuted, C108_sdf, C108_al3d, C108_tmd, C108_sflz_float, C108_sflz_uint, C108_sur, C110_refuted, C112_written, C112_example, C113_contents, C113_reads, C113_images, C113_trailing, C113_cut, C113_example, C116_filter.
<!-- assumptions end -->
