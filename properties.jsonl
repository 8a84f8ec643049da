{"id": "C01", "title": "Label order of a sample", "statement": "MultilayerStructure.label_names lists one thickness label per film layer (bottom to top), then one roughness label for the substrate and each film layer, then one SLD label for substrate, each film layer and the ambient; the three groups have n, n+1 and n+2 entries for n film layers, and the label of layer L and quantity x is \"L_x\".", "quantifier": "every sample structure with any number of layers and any layer names", "why_tests_cant": "Tests look at one two-layer sample; every consumer (simulation, preprocessing, fitting) indexes labels positionally for any stack height.", "anchors": ["mlreflect/data_generation/multilayer.py: MultilayerStructure.label_names, thicknesses, roughnesses, slds"]}
{"id": "C02", "title": "Distinct layers give distinct labels", "statement": "If all layers of a sample (substrate, film layers, ambient) have pairwise different names and default parameter names, then all entries of label_names are pairwise different, so no column of a label table shadows another; two layers with the same name always collide.", "quantifier": "every sample structure and every assignment of layer names (all strings)", "why_tests_cant": "Name collisions depend on arbitrary user strings; tests use a few fixed names.", "anchors": ["mlreflect/data_generation/multilayer.py: label_names", "mlreflect/data_generation/layers.py: Layer"]}
{"id": "C03", "title": "Dictionary round trip of a sample", "statement": "Loading to_dict() of a sample into a fresh MultilayerStructure with from_dict() succeeds and yields a sample with the same layer names in the same order, the same parameter values/ranges and the same label names, whenever substrate and ambient hold constant parameters and ranges are real.", "quantifier": "every valid sample with any number of layers, real ranges and real or complex constants", "why_tests_cant": "A round trip must hold for all structures; tests check one.", "anchors": ["mlreflect/data_generation/multilayer.py: to_dict, from_dict", "mlreflect/data_generation/layers.py: to_dict, _parse_parameter, _set_parameter"]}
{"id": "C04", "title": "from_dict replaces the structure", "statement": "After s.from_dict(d) the structure s consists of exactly the layers described by d (as the docstring \"Set the layers ... according to the dictionary\" says), whatever s contained before.", "quantifier": "every previous content of the structure and every dictionary", "why_tests_cant": "Depends on the history of the object before the call; tests only call it on a fresh object.", "anchors": ["mlreflect/data_generation/multilayer.py: from_dict"]}
{"id": "C05", "title": "Saved model loads back", "statement": "TrainedModel.save_model followed by TrainedModel.from_file on the same path returns the same keras model, q values, standardisation mean/std and a sample with the same names, values and label names; saving rejects exactly the samples that contain a complex number with zero imaginary part.", "quantifier": "every trained model whose sample is valid; every previous content of the target file", "why_tests_cant": "Persistence must be lossless for all samples; tests use two.", "anchors": ["mlreflect/models/trained_model.py: save_model, from_file", "mlreflect/data_generation/multilayer.py: to_dict, from_dict"]}
{"id": "C06", "title": "move_layer moves one layer and keeps the others in order", "statement": "For valid non-negative indices, move_layer(i, j) puts the layer that was at i at position j and leaves the relative order of all other layers unchanged.", "quantifier": "every list of distinct layer objects and every pair of in-range non-negative indices", "why_tests_cant": "All pairs of indices and all lengths; in-place insert/remove with shifting indices is easy to get wrong by one.", "anchors": ["mlreflect/data_generation/multilayer.py: move_layer"]}
{"id": "C07", "title": "move_layer never loses or duplicates a layer", "statement": "For all integer indices (Python allows negative ones), move_layer either raises or leaves the collection of layers the same up to order.", "quantifier": "every list of layers and every pair of integers", "why_tests_cant": "Negative indices are a separate branch of Python index arithmetic that no test exercises.", "anchors": ["mlreflect/data_generation/multilayer.py: move_layer"]}
{"id": "C08", "title": "swap_layers exchanges exactly two layers", "statement": "swap_layers(i, j) for valid (possibly negative) indices exchanges the layers at i and j and leaves every other position unchanged; it is its own inverse; for invalid indices it raises IndexError and changes nothing.", "quantifier": "every list of layers and every pair of integers", "why_tests_cant": "All lengths and index pairs including negative ones.", "anchors": ["mlreflect/data_generation/multilayer.py: swap_layers"]}
{"id": "C09", "title": "add_layer inserts at the requested position", "statement": "add_layer(layer) appends on top; add_layer(layer, index) for an integer inserts so that the earlier layers keep their order and the number of layers grows by exactly one, the index being clamped like a Python list insert; any other index raises ValueError without a change.", "quantifier": "every layer list, every integer index", "why_tests_cant": "All indices including negative and out-of-range ones.", "anchors": ["mlreflect/data_generation/multilayer.py: MultilayerStructure.add_layer"]}
{"id": "C10", "title": "LayerOnSubstrate holds at most one variable layer", "statement": "However a LayerOnSubstrate is filled through add_layer, it never contains two non-constant layers (the second one is rejected with ValueError).", "quantifier": "every sequence of add_layer calls with constant and non-constant layers at arbitrary positions", "why_tests_cant": "An invariant over all call histories.", "anchors": ["mlreflect/data_generation/multilayer.py: LayerOnSubstrate.add_layer, has_variable_layer"]}
{"id": "C11", "title": "Accepted layers have valid ranges", "statement": "Every Layer that the constructor accepts has thickness and roughness minima that are not negative, and every range parameter it builds from a pair satisfies min < max; all other inputs raise.", "quantifier": "every combination of constructor inputs (numbers, pairs, parameter objects)", "why_tests_cant": "All inputs; tests check five rejections.", "anchors": ["mlreflect/data_generation/layers.py: Layer.__init__, _set_parameter", "mlreflect/data_generation/parameters.py: Parameter.__init__"]}
{"id": "C12", "title": "Constant layers are constant", "statement": "A ConstantLayer, Substrate or AmbientLayer only ever holds constant parameters; giving it a range is rejected with an error.", "quantifier": "every constructor input of the three classes", "why_tests_cant": "All inputs; the rejecting branch builds an exception object, and only a proof about every input shows whether it is ever raised.", "anchors": ["mlreflect/data_generation/layers.py: ConstantLayer._set_parameter, Substrate, AmbientLayer"]}
{"id": "C13", "title": "A copied sample is independent of the original", "statement": "Renaming any layer of a sample.copy() never changes the names or labels of the original, and the copy starts with the same layers, values and labels.", "quantifier": "every heap of layer objects, every sample and every sequence of renames on the copy", "why_tests_cant": "Aliasing between objects over all histories.", "anchors": ["mlreflect/data_generation/multilayer.py: copy, __copy__, rename_layer", "mlreflect/data_generation/layers.py: __copy__"]}
{"id": "C14", "title": "Range sampling stays inside the range (uniform, logarithmic)", "statement": "Parameter.sample with a uniform or logarithmic distribution returns exactly the requested number of values, all inside [min, max].", "quantifier": "every range (positive for logarithmic), every sample count and every random outcome", "why_tests_cant": "Every outcome of the random generator.", "anchors": ["mlreflect/data_generation/distributions.py: sample_distribution, random_logarithmic_distribution", "mlreflect/data_generation/parameters.py: Parameter.sample"]}
{"id": "C15", "title": "Bolstered sampling: number of values", "statement": "Bolstered sampling returns exactly the requested number of samples for every bolster fraction between 0 and 1, of which 2*floor(n*f/2) come from around the limits.", "quantifier": "every n, every fraction in [0,1], every random outcome", "why_tests_cant": "Floor arithmetic for all n and f.", "anchors": ["mlreflect/data_generation/distributions.py: bolstered_uniform_distribution"]}
{"id": "C16", "title": "Bolstered sampling stays inside the range", "statement": "Every value drawn by bolstered sampling lies inside [min, max] (\"fold all values inside the range\").", "quantifier": "every range, width and every random outcome of the normal draws", "why_tests_cant": "Normal draws are unbounded, so rare outcomes matter; no test can draw them all.", "anchors": ["mlreflect/data_generation/distributions.py: _fold_distribution, bolstered_uniform_distribution"]}
{"id": "C17", "title": "Roughness is coupled to thickness", "statement": "In generated labels each film layer's roughness lies inside its own range and never exceeds half of the thickness drawn for the same row unless the minimum roughness itself does.", "quantifier": "every sample, row count and random outcome (uniform distribution)", "why_tests_cant": "A per-row relation between two random columns for all outcomes.", "anchors": ["mlreflect/data_generation/data_generator.py: _generate_roughness_from_thickness, _get_max_roughness"]}
{"id": "C18", "title": "Shape of the generated label table", "statement": "generate_random_labels(n) returns a table whose columns are exactly sample.label_names in that order, each with n rows, and every constant parameter's column repeats its value; n <= 0 raises ValueError.", "quantifier": "every sample with distinct layer names and default parameter names, every n, every random outcome", "why_tests_cant": "All stack heights, names and outcomes.", "anchors": ["mlreflect/data_generation/data_generator.py: generate_random_labels"]}
{"id": "C19", "title": "Labels are separated into the right categories", "statement": "separate_labels_by_category applied to a table with the columns of sample.label_names returns the thickness, roughness and SLD columns of the layers in stack order, so that simulation receives n, n+1 and n+2 columns.", "quantifier": "every sample whose layer names avoid the words thickness, roughness and sld; refuted without that restriction", "why_tests_cant": "Substring matching on arbitrary user-chosen names.", "anchors": ["mlreflect/data_generation/data_generator.py: separate_labels_by_category"]}
{"id": "C20", "title": "Simulated reflectivity is a physical intensity", "statement": "multilayer_reflectivity returns one value per q value, each a number between 0 and 1 inclusive (NaN is possible only for a rough stack in which some interface amplitude is exactly plus or minus one, or an amplifying one); it raises NotImplementedError for a non-zero ambient SLD and ValueError exactly when the numbers of thicknesses, roughnesses and SLDs are inconsistent.", "quantifier": "every list of q values, any number of layers, all real thicknesses/roughnesses, complex SLDs", "why_tests_cant": "All stacks and q values.", "anchors": ["mlreflect/data_generation/reflectivity.py: multilayer_reflectivity"]}
{"id": "C21", "title": "No contrast, no reflection", "statement": "If every layer has the same scattering length density as the (zero) ambient, the simulated reflectivity is 0 at every q, whatever the thicknesses and roughnesses.", "quantifier": "any number of layers, all thicknesses, roughnesses and q values", "why_tests_cant": "A physical law over all stacks.", "anchors": ["mlreflect/data_generation/reflectivity.py: multilayer_reflectivity, _make_reflection_matrix, _safe_div"]}
{"id": "C22", "title": "Splitting a homogeneous layer changes nothing", "statement": "Replacing a film layer of thickness d1+d2 by two adjacent layers of thicknesses d1 and d2 with the same SLD (and any roughness at the fictitious interface) leaves the simulated reflectivity unchanged.", "quantifier": "any stack, any position of the split layer, any d1, d2, any interface roughness, every q", "why_tests_cant": "A metamorphic law over all stacks.", "anchors": ["mlreflect/data_generation/reflectivity.py: multilayer_reflectivity, _make_translation_matrix"]}
{"id": "C23", "title": "Bare substrate follows the Névot-Croce Fresnel formula", "statement": "For a bare substrate the simulated reflectivity equals min(1, |(k0-k1)/(k0+k1) * exp(-2 k0 k1 sigma^2)|^2).", "quantifier": "every SLD, roughness and q with non-degenerate wave vectors", "why_tests_cant": "An analytic formula for all inputs.", "anchors": ["mlreflect/data_generation/reflectivity.py: multilayer_reflectivity, _make_reflection_matrix"]}
{"id": "C24", "title": "Transfer-matrix result equals the Parratt recursion", "statement": "For every number of layers the simulated reflectivity is |r|^2 (clipped at 1) where r is given by the Parratt recursion with Névot-Croce roughness factors from the substrate upwards.", "quantifier": "any number of layers, all parameters for which the recursion has no vanishing denominator", "why_tests_cant": "Equivalence of two algorithms for all stack heights.", "anchors": ["mlreflect/data_generation/reflectivity.py: multilayer_reflectivity"]}
{"id": "C25", "title": "One simulated curve per label row", "statement": "simulate_reflectivity returns one curve per row of the label table and one point per q value.", "quantifier": "every sample (including the bare substrate), every label table", "why_tests_cant": "All shapes, including the corner case of no film layer.", "anchors": ["mlreflect/data_generation/data_generator.py: simulate_reflectivity, _builtin"]}
{"id": "C26", "title": "SLD profile follows the smooth-step construction", "statement": "make_sld_profile returns heights starting at -(10+3*first roughness) with step 0.1 and, at each height, substrate SLD plus the sum of error-function steps at the cumulative interface positions; it starts from the substrate value and ends at the ambient value up to the step tails, and inconsistent layer counts raise ValueError.", "quantifier": "any number of layers and all parameters", "why_tests_cant": "All stacks; closed-form law.", "anchors": ["mlreflect/data_generation/data_generator.py: make_sld_profile, _smooth_step"]}
{"id": "C27", "title": "Interpolation is exact at data points and bounded between them", "statement": "interp_reflectivity returns the measured value at every measured q, the first/last value outside the measured range, and always a value between the smallest and largest measured intensity.", "quantifier": "every strictly increasing q grid, every non-negative curve, every query point", "why_tests_cant": "All grids and query points.", "anchors": ["mlreflect/data_generation/interpolation.py: interp_reflectivity"]}
{"id": "C28", "title": "Scaling and shifting commute with interpolation", "statement": "Multiplying a curve by a positive factor before interpolation equals multiplying the interpolated curve by it, and shifting data and query q values by the same amount changes nothing.", "quantifier": "every grid, curve, positive factor and shift", "why_tests_cant": "A law for all inputs; the fitter documentation says the factor is applied after interpolation while the code applies it before.", "anchors": ["mlreflect/data_generation/interpolation.py", "mlreflect/curve_fitter/curve_fitter.py: fit_curve, _interpolate_intensity"]}
{"id": "C29", "title": "ModelMixer simulates the given labels", "statement": "ModelMixer.simulate_reflectivity(labels) returns one simulated curve per label row, using for each row one of the added models.", "quantifier": "every label table, set of models and random outcome", "why_tests_cant": "All histories of added models and outcomes.", "anchors": ["mlreflect/data_generation/model_mixer.py: simulate_reflectivity", "mlreflect/data_generation/data_generator.py: simulate_reflectivity"]}
{"id": "C30", "title": "Standardisation statistics are frozen by the first call", "statement": "Through any sequence of standardize, revert_standardization and reset_mean_and_std calls, the stored mean/std are those of the first successful standardize call since the last reset; failing calls change nothing; has_saved_standardization is true exactly when such a call happened.", "quantifier": "every sequence of calls with arbitrary data", "why_tests_cant": "An invariant over all call histories.", "anchors": ["mlreflect/training/preprocessing.py: InputPreprocessor"]}
{"id": "C31", "title": "Standardisation can be undone", "statement": "revert_standardization(standardize(data)) returns data whenever the stored standard deviations are non-zero.", "quantifier": "every data matrix of any size", "why_tests_cant": "All matrices.", "anchors": ["mlreflect/training/preprocessing.py: standardize, revert_standardization"]}
{"id": "C32", "title": "First standardisation yields zero mean and unit variance", "statement": "The first standardize(data) returns columns whose mean is 0 and whose standard deviation is 1; a constant column is rejected with ValueError and nothing is stored.", "quantifier": "every data matrix with at least one row", "why_tests_cant": "All matrices.", "anchors": ["mlreflect/training/preprocessing.py: standardize"]}
{"id": "C33", "title": "Label preprocessing round trip", "statement": "restore_labels(apply_preprocessing(labels)[0]) returns the original label table (columns in label order) when the constant columns hold the constant values.", "quantifier": "every sample with distinct label names, every label table, both normalisations (non-zero maximum for absolute_max)", "why_tests_cant": "All samples and tables.", "anchors": ["mlreflect/training/preprocessing.py: apply_preprocessing, restore_labels, normalize_labels, renormalize_labels, remove_labels, add_constant_labels"]}
{"id": "C34", "title": "Min-to-zero normalisation maps the range onto [0,1]", "statement": "With min_to_zero each non-constant label inside its range is mapped into [0,1], the minimum to 0, the maximum to 1, strictly increasingly.", "quantifier": "every range and every label inside it", "why_tests_cant": "All real values (and, at binary64 level, all floats).", "anchors": ["mlreflect/training/preprocessing.py: normalize_labels"]}
{"id": "C35", "title": "absolute_max scales the absolute maximum to one", "statement": "With absolute_max every label inside its range is mapped into [-1,1] (\"scales absolute maximum value to 1\").", "quantifier": "every range", "why_tests_cant": "All ranges, including ones whose minimum has the larger magnitude.", "anchors": ["mlreflect/training/preprocessing.py: normalize_labels"]}
{"id": "C36", "title": "Constant labels are split off and returned", "statement": "apply_preprocessing returns exactly the non-constant columns (in the order of the table, which is label order for generated tables and arrays) and, separately, exactly the constant columns with their original values; the input table is not modified.", "quantifier": "every sample and label table", "why_tests_cant": "All samples.", "anchors": ["mlreflect/training/preprocessing.py: apply_preprocessing, remove_labels"]}
{"id": "C37", "title": "The chosen normalisation is applied", "statement": "Whatever string equal to an allowed normalisation name is passed, labels are normalised accordingly.", "quantifier": "every string object equal to an allowed name", "why_tests_cant": "The code compares strings by identity; behaviour depends on how the string object came to be.", "anchors": ["mlreflect/training/preprocessing.py: OutputPreprocessor.__init__, normalize_labels, renormalize_labels"]}
{"id": "C38", "title": "Epoch batches are disjoint and in range", "statement": "In every epoch the batches 0..len-1 of a generator are disjoint, each has exactly batch_size samples, every sample index is valid, and exactly n mod batch_size samples are left out; this holds after any number of reshuffles.", "quantifier": "every data set size, batch size, shuffle outcome and epoch history", "why_tests_cant": "All sizes and shuffles.", "anchors": ["mlreflect/training/noise_generator.py: BaseGenerator.__len__, __getitem__, on_epoch_end"]}
{"id": "C39", "title": "Inputs and labels of a batch belong together", "statement": "Row i of a batch's input is computed from the reflectivity of the same data-set row whose label is row i of the batch's output, after any shuffling; the stored reflectivity and labels are never modified.", "quantifier": "every generator state and batch index", "why_tests_cant": "All shuffles and batch positions.", "anchors": ["mlreflect/training/noise_generator.py: BaseGenerator, NoiseGenerator, UniformNoiseGenerator"]}
{"id": "C40", "title": "Shot noise keeps curves positive and shaped", "statement": "apply_shot_noise and apply_poisson_noise return arrays of the input shape with all values at least 1e-16 and one spread per curve; a spread that is neither number nor tuple raises TypeError.", "quantifier": "every array of curves, spread and random outcome", "why_tests_cant": "All random outcomes.", "anchors": ["mlreflect/data_generation/noise.py: apply_shot_noise, apply_poisson_noise"]}
{"id": "C41", "title": "Random scaling keeps the curve shape", "statement": "apply_scaling_factor multiplies each curve by one factor from the given range, returns an array of the same shape and leaves the input unchanged.", "quantifier": "every array of curves, range and random outcome", "why_tests_cant": "All shapes, including a single-row matrix.", "anchors": ["mlreflect/data_generation/noise.py: apply_scaling_factor"]}
{"id": "C42", "title": "Noise generator in batch mode", "statement": "With mode='batch' and a noise or background range, the noise generator yields batches (one random level per batch).", "quantifier": "every range, data set and batch index", "why_tests_cant": "The level is drawn as an array whose type decides; every input takes the same branch.", "anchors": ["mlreflect/training/noise_generator.py: NoiseGenerator.__data_generation", "mlreflect/data_generation/noise.py: apply_shot_noise, generate_background"]}
{"id": "C43", "title": "Training/validation split", "statement": "Trainer.train uses every generated sample exactly once, either for training or for validation, in the original order, with int((1-val_split)*n) training samples, and labels stay aligned with curves.", "quantifier": "every data set size and split fraction in [0,1]", "why_tests_cant": "All sizes and fractions.", "anchors": ["mlreflect/training/training.py: Trainer.train"]}
{"id": "C44", "title": "Background generation", "statement": "generate_background returns a number_of_curves x number_of_q matrix and one level per curve; the level is the given number or a random value of the given positive range.", "quantifier": "every size, level, spread and random outcome", "why_tests_cant": "All sizes and outcomes.", "anchors": ["mlreflect/data_generation/noise.py: generate_background"]}
{"id": "C45", "title": "SPEC file index is complete", "statement": "For every SPEC file made of scan blocks separated by blank lines, SpecParser.scan_info has exactly one entry per scan number, with the command and time of the last block carrying that number.", "quantifier": "every list of scan blocks with arbitrary header and data lines", "why_tests_cant": "All files; recursion and index arithmetic.", "anchors": ["mlreflect/xrrloader/parser/spec_parser.py: _index_scans, _search_for_next_scan"]}
{"id": "C46", "title": "SPEC scan data round trip", "statement": "extract_scan returns exactly the column names and the rows of numbers written in the scan's block.", "quantifier": "every well-formed scan block anywhere in a file", "why_tests_cant": "All files and positions.", "anchors": ["mlreflect/xrrloader/parser/spec_parser.py: extract_scan, _extract_column_names, _extract_scan_data"]}
{"id": "C47", "title": "Column names are read verbatim", "statement": "The column names returned by extract_scan are the names written after \"#L \".", "quantifier": "every list of column names", "why_tests_cant": "Depends on the characters of the names.", "anchors": ["mlreflect/xrrloader/parser/spec_parser.py: _extract_column_names"]}
{"id": "C48", "title": "Consecutive scans without blank line", "statement": "Every \"#S\" line of a SPEC file yields an entry in scan_info.", "quantifier": "every SPEC file", "why_tests_cant": "Depends on file layout.", "anchors": ["mlreflect/xrrloader/parser/spec_parser.py: _index_scans"]}
{"id": "C49", "title": "Indexing works for any number of scans", "statement": "A SPEC file can be opened whatever the number of scans in it.", "quantifier": "every file and interpreter recursion limit", "why_tests_cant": "Recursion depth grows with the number of scans.", "anchors": ["mlreflect/xrrloader/parser/spec_parser.py: _index_scans"]}
{"id": "C50", "title": "Trimming crops the requested points", "statement": "Loading a scan with trim_front=f and trim_back=b removes exactly the first f and the last b points of angle and intensity.", "quantifier": "every scan length and all f, b", "why_tests_cant": "All lengths; the corner case b=0.", "anchors": ["mlreflect/xrrloader/dataloader/reflectivity_loader.py: _trim_front, _trim_back", "mlreflect/xrrloader/dataloader/spec_loader.py: load_scan"]}
{"id": "C51", "title": "Attenuator kinks are removed", "statement": "correct_discontinuities returns a curve that is equal at every pair of consecutive points with the same angle, keeps the first point and keeps the ratio of neighbouring points everywhere else.", "quantifier": "every curve with non-zero intensities and every angle list", "why_tests_cant": "All curves; the correction factors accumulate along the curve.", "anchors": ["mlreflect/xrrloader/dataloader/reflectivity_loader.py: correct_discontinuities"]}
{"id": "C52", "title": "Corrected intensity is normalised", "statement": "corrected_intensity has maximum 1 when normalising to the maximum, first value 1 when normalising to the first point, and is unchanged when all raw intensities are multiplied by a common positive factor.", "quantifier": "every scan with positive intensities", "why_tests_cant": "All curves.", "anchors": ["mlreflect/xrrloader/dataloader/scans.py: corrected_intensity, _normalize", "mlreflect/xrrloader/footprint/normalization.py"]}
{"id": "C53", "title": "Footprint correction can be removed again", "statement": "remove_footprint_correction undoes apply_footprint_correction (and vice versa) for every angle, beam width, sample length and shape for which the factors are finite and non-zero.", "quantifier": "every curve and geometry", "why_tests_cant": "All inputs.", "anchors": ["mlreflect/xrrloader/footprint/footprint.py"]}
{"id": "C54", "title": "Box footprint factor", "statement": "For a box beam the correction factor is at least 1, equals beam/(sample*sin(theta)) below the spill-over angle and 1 above it, and is continuous at that angle.", "quantifier": "every positive geometry with beam <= sample and every angle in (0,180]", "why_tests_cant": "All angles.", "anchors": ["mlreflect/xrrloader/footprint/footprint.py: box_factors, beam_footprint_ratio"]}
{"id": "C55", "title": "Invalid beam shapes are reported", "statement": "A scan with an unknown beam shape raises an error when the corrected intensity is requested.", "quantifier": "every string that is not a beam shape", "why_tests_cant": "All strings.", "anchors": ["mlreflect/xrrloader/dataloader/scans.py: corrected_intensity"]}
{"id": "C56", "title": "Angle and q conversions are inverse", "statement": "q_to_angle(angle_to_q(a)) = a for angles in [-180,180] and angle_to_q(q_to_angle(q)) = q for reachable q; energy and wavelength conversions are mutually inverse.", "quantifier": "every angle, q, wavelength and energy in the domain", "why_tests_cant": "All real values.", "anchors": ["mlreflect/xrrloader/dataloader/transform.py", "mlreflect/training/footprint.py: angle_to_q, q_to_angle"]}
{"id": "C57", "title": "Range getters return aligned data", "statement": "get_q_range, get_raw_intensity_range and get_corrected_intensity_range return arrays of equal length whose i-th entries belong to the same measured point.", "quantifier": "every scan and every q_min, q_max (or None)", "why_tests_cant": "All scans and bounds.", "anchors": ["mlreflect/xrrloader/dataloader/scans.py: get_q_range, get_raw_intensity_range, get_corrected_intensity_range, _get_closest_index"]}
{"id": "C58", "title": "load_scans skips only non-reflectivity scans", "statement": "SpecLoader.load_scans returns, in the requested order, the scans that load_scan accepts and silently skips exactly those that raise NotReflectivityScanError; any other error is raised.", "quantifier": "every file and list of scan numbers", "why_tests_cant": "All request lists.", "anchors": ["mlreflect/xrrloader/dataloader/spec_loader.py: load_scans, load_scan"]}
{"id": "C59", "title": "FIO columns stay rectangular", "statement": "Reading a .fio file gives every column the same number of entries, one per data line, with not-a-number for unreadable or missing tokens; reading never fails on malformed data lines.", "quantifier": "every file with pairwise different column names", "why_tests_cant": "All line contents.", "anchors": ["mlreflect/xrrloader/p08tools/fio_reader.py: read"]}
{"id": "C60", "title": "FIO file round trip", "statement": "Reading a well-formed .fio file returns exactly its motor positions, column names, data columns and scan command.", "quantifier": "every well-formed file", "why_tests_cant": "All files.", "anchors": ["mlreflect/xrrloader/p08tools/fio_reader.py: read"]}
{"id": "C61", "title": "Duplicate points are removed consistently", "statement": "Scan.remove_double keeps the last point of every run of equal motor positions, removes the same rows from every data column, motor and image stack, leaves no two consecutive equal positions, and a second call changes nothing.", "quantifier": "every scan", "why_tests_cant": "All position sequences.", "anchors": ["mlreflect/xrrloader/p08tools/P08ScanTools.py: Scan.remove_double"]}
{"id": "C62", "title": "Region-of-interest sums are additive", "statement": "extract_rois returns for each image the attenuation times the sum of the pixels inside the region; splitting a region into two adjacent ones splits the sum.", "quantifier": "every image stack and region", "why_tests_cant": "All images.", "anchors": ["mlreflect/xrrloader/p08tools/P08ScanTools.py: ScanAnalyzer.extract_rois"]}
{"id": "C63", "title": "Attenuation is applied once", "statement": "The intensity of a scan loaded from .fio files is the detector signal times the attenuation.", "quantifier": "every scan, with the default counter or a custom region of interest", "why_tests_cant": "All scans; two code paths.", "anchors": ["mlreflect/xrrloader/dataloader/fio_loader.py: load_scan", "mlreflect/xrrloader/p08tools/P08ScanTools.py: extract_rois"]}
{"id": "C64", "title": "Images stay aligned with data rows", "statement": "Image k of a loaded pilatus stack belongs to data row k.", "quantifier": "every index column and set of image files present on disk", "why_tests_cant": "All subsets of missing files.", "anchors": ["mlreflect/xrrloader/p08tools/P08ScanTools.py: Scan._load_pilatus"]}
{"id": "C65", "title": "FIO scan numbers", "statement": "FioParser finds the scan number of every file of the experiment, whatever other .fio files lie in the same folder.", "quantifier": "every folder content", "why_tests_cant": "All file names.", "anchors": ["mlreflect/xrrloader/parser/fio_parser.py: scan_numbers, fio_path_list"]}
{"id": "C66", "title": "One parameter row and one curve per input curve", "statement": "fit_curve returns one row of predicted parameters and (if requested) one simulated curve per input curve, in input order, with columns equal to the sample's label names, for every combination of options.", "quantifier": "every number of curves and all option combinations", "why_tests_cant": "All option combinations and batch sizes.", "anchors": ["mlreflect/curve_fitter/curve_fitter.py: fit_curve"]}
{"id": "C67", "title": "Predicted thickness and roughness are never negative", "statement": "Every thickness and roughness in the predicted parameters of fit_curve is >= 0.", "quantifier": "every network output, optimiser result and option combination", "why_tests_cant": "Every network output.", "anchors": ["mlreflect/curve_fitter/curve_fitter.py: fit_curve, _ensure_positive_parameters"]}
{"id": "C68", "title": "The best variant is selected", "statement": "The q-shift (scaling) optimisation returns the variant whose log mean squared error is minimal among all variants, together with the shift (scaling) and the parameters of that same variant.", "quantifier": "every list of variants and errors", "why_tests_cant": "All error lists, including undefined errors.", "anchors": ["mlreflect/curve_fitter/curve_fitter.py: _optimize_q, _optimize_scaling", "mlreflect/curve_fitter/minimizer.py: curve_variant_log_mse"]}
{"id": "C69", "title": "Optimised predictions are what fit_curve returns", "statement": "With optimize_q=True the returned parameters are those of the selected shift variant.", "quantifier": "every input and option combination", "why_tests_cant": "Control flow over all option combinations.", "anchors": ["mlreflect/curve_fitter/curve_fitter.py: fit_curve"]}
{"id": "C70", "title": "Optional outputs are None exactly when not requested", "statement": "best_q_shift is None iff optimize_q is off, best_scaling is None iff optimize_scaling is off, predicted_reflectivity is None iff simulate_reflectivity is off.", "quantifier": "all option combinations and inputs", "why_tests_cant": "All combinations.", "anchors": ["mlreflect/curve_fitter/curve_fitter.py: fit_curve"]}
{"id": "C71", "title": "Polishing starts inside its bounds", "statement": "The start value of the least-squares refinement lies within the bounds handed to the optimiser and each bound pair has one entry per fitted label.", "quantifier": "every start value and non-negative fraction, every number of labels", "why_tests_cant": "All label counts and values.", "anchors": ["mlreflect/curve_fitter/minimizer.py: least_log_mean_squares_fit"]}
{"id": "C72", "title": "Polishing bounds are relative to the predicted value", "statement": "With fraction 0.5 and a predicted thickness of 150 the fit bounds are (75, 225), as documented.", "quantifier": "every predicted value, range and fraction", "why_tests_cant": "All values.", "anchors": ["mlreflect/curve_fitter/minimizer.py: least_log_mean_squares_fit", "mlreflect/curve_fitter/curve_fitter.py: fit_curve docstring"]}
{"id": "C73", "title": "SpecFitter reload", "statement": "SpecFitter.fit(reload=True) fits the data currently in the SPEC file with the currently set parameters.", "quantifier": "every history of set_* calls, file changes and fits", "why_tests_cant": "All histories.", "anchors": ["mlreflect/curve_fitter/spec_fitter.py: fit, _reload_loader, set_file", "mlreflect/curve_fitter/base_fitter.py: reload_scans"]}
{"id": "C74", "title": "FioFitter reload", "statement": "FioFitter.fit(reload=True) uses the data currently on disk with the currently set parameters, and with reload=False the data and parameters of the last load.", "quantifier": "every history of set_* calls, file changes and fits", "why_tests_cant": "All histories.", "anchors": ["mlreflect/curve_fitter/fio_fitter.py: fit, _reload_loader, set_file", "mlreflect/curve_fitter/base_fitter.py: reload_scans"]}
{"id": "C75", "title": "Missing scans are skipped with a message", "statement": "Fitting a scan that cannot be found prints a message and returns None.", "quantifier": "every file and scan number, both fitters", "why_tests_cant": "Exception flow over all inputs.", "anchors": ["mlreflect/curve_fitter/spec_fitter.py: fit", "mlreflect/curve_fitter/fio_fitter.py: fit", "mlreflect/xrrloader/dataloader/spec_loader.py: load_scan"]}
{"id": "C76", "title": "fit without q optimisation", "statement": "fit(optimize_q=False) returns a FitResult with best_q_shift None.", "quantifier": "every scan, both fitters", "why_tests_cant": "All inputs.", "anchors": ["mlreflect/curve_fitter/fio_fitter.py: fit", "mlreflect/curve_fitter/spec_fitter.py: fit"]}
{"id": "C77", "title": "set_trained_model takes exactly one source", "statement": "set_trained_model accepts exactly one of trained_model and model_path; otherwise it raises ValueError and the fitter is unchanged.", "quantifier": "all argument combinations and states", "why_tests_cant": "All combinations.", "anchors": ["mlreflect/curve_fitter/base_fitter.py: set_trained_model"]}
{"id": "C78", "title": "Result series keep order and content", "statement": "fit_range returns the fitted scans in request order without the skipped ones; entry i of every aggregated field belongs to entry i of fit_results_list, and the parameter table is indexed by scan number.", "quantifier": "every request list", "why_tests_cant": "All lists.", "anchors": ["mlreflect/curve_fitter/results.py: FitResultSeries", "mlreflect/curve_fitter/fio_fitter.py: fit_range", "mlreflect/curve_fitter/spec_fitter.py: fit_range"]}
{"id": "C79", "title": "Saved curves of a series do not overwrite each other", "statement": "Saving a series writes one file per scan into the given directory; different scan numbers give different file names.", "quantifier": "every series with distinct scan numbers and every path", "why_tests_cant": "All numbers and paths.", "anchors": ["mlreflect/curve_fitter/results.py: save_predicted_reflectivity, save_corrected_reflectivity"]}
{"id": "C80", "title": "Error of a series is available", "statement": "FitResultSeries.curve_mse returns one error per result.", "quantifier": "every non-empty series", "why_tests_cant": "All series.", "anchors": ["mlreflect/curve_fitter/results.py: FitResultSeries.curve_mse"]}
{"id": "C81", "title": "Mean squared error", "statement": "mean_squared_error is non-negative, symmetric, zero exactly for equal arrays, and raises ValueError for different lengths.", "quantifier": "all arrays", "why_tests_cant": "All arrays.", "anchors": ["mlreflect/curve_fitter/minimizer.py: mean_squared_error"]}
{"id": "C82", "title": "HDF5 training data round trip", "statement": "load_data after save_data_as_h5 returns the saved q values, reflectivity and labels and the per-label minimum and maximum, whatever the file contained before.", "quantifier": "every data set and previous file content", "why_tests_cant": "All histories of the file.", "anchors": ["mlreflect/utils/h5_tools.py: save_data_as_h5, load_data, create_dataset_with_override"]}
{"id": "C83", "title": "File extension helper", "statement": "ensure_h5_extension returns a name ending in .h5 or .hdf5, leaves such names unchanged and is idempotent.", "quantifier": "every string", "why_tests_cant": "All strings.", "anchors": ["mlreflect/utils/h5_tools.py: ensure_h5_extension"]}
{"id": "C84", "title": "Footprint rescaling keeps the maximum", "statement": "FootprintRescaler returns curves with the maximum of the original curve, applying and correcting with the same ratio returns the original curve, and the reported ratio of each curve is one of true_ratio*errors.", "quantifier": "every curve, angle list, ratio and random choice", "why_tests_cant": "All inputs and choices.", "anchors": ["mlreflect/training/footprint.py: FootprintRescaler"]}
{"id": "C85", "title": "Smooth stacks conserve energy", "statement": "For ideally smooth interfaces and non-amplifying media the simulated amplitude exists at every q and its modulus exceeds 1 by at most 16*pi*1e-30/q^2 (the artificial absorption of the ambient), so the final clipping is inactive up to that term.", "quantifier": "any number of layers, all non-negative thicknesses, all complex SLDs with non-negative imaginary part, every q other than 0", "why_tests_cant": "A conservation law over all stacks; a test can only sample it.", "anchors": ["mlreflect/data_generation/reflectivity.py: multilayer_reflectivity, _make_reflection_matrix, _make_translation_matrix"]}
{"id": "C86", "title": "A layer without thickness and roughness is invisible", "statement": "Inserting a layer of zero thickness between smooth interfaces leaves the simulated reflectivity unchanged whatever its SLD.", "quantifier": "every stack, every position, every non-amplifying SLD, every q", "why_tests_cant": "A metamorphic law over all stacks.", "anchors": ["mlreflect/data_generation/reflectivity.py: multilayer_reflectivity"]}
{"id": "C87", "title": "Reflectivity is even in q", "statement": "multilayer_reflectivity gives the same values (or the same exception) for -q as for q.", "quantifier": "all arguments", "why_tests_cant": "A symmetry over all inputs.", "anchors": ["mlreflect/data_generation/reflectivity.py: _get_relative_k_z, multilayer_reflectivity"]}
{"id": "C88", "title": "One SLD profile per label row", "statement": "simulate_sld_profiles returns one profile per row of the label table, namely make_sld_profile of that row with its first SLD as substrate and its last as ambient.", "quantifier": "every sample (including the bare substrate), every label table", "why_tests_cant": "All shapes, including the corner case of no film layer.", "anchors": ["mlreflect/data_generation/data_generator.py: simulate_sld_profiles"]}
{"id": "C89", "title": "Training batches are two-dimensional", "statement": "UniformNoiseGenerator returns inputs of shape (batch_size, number of q values) together with batch_size label rows for every batch of every epoch.", "quantifier": "every data set, batch size, ranges, shuffle history and random outcome", "why_tests_cant": "Shapes depend on a corner case (one curve) that the default batch size hides.", "anchors": ["mlreflect/training/noise_generator.py: UniformNoiseGenerator.__getitem__", "mlreflect/data_generation/noise.py: apply_scaling_factor"]}
{"id": "C90", "title": "Verbosity reaches the callbacks", "statement": "Trainer.train passes the requested verbosity to the learning-rate callback.", "quantifier": "every verbosity, trainer state and fit function", "why_tests_cant": "Only visible as printed text; a test would have to capture it.", "anchors": ["mlreflect/training/training.py: Trainer._prepare_callbacks, train"]}
{"id": "C91", "title": "Any positive number of training samples", "statement": "generate_training_data succeeds for every positive number of samples for which label generation and simulation succeed, and changes nothing when the number is not positive.", "quantifier": "every trainer, random outcome and number of samples", "why_tests_cant": "The failing corner case is one sample.", "anchors": ["mlreflect/training/training.py: generate_training_data, _prepare_input_preprocessor"]}
{"id": "C92", "title": "Batch size condition of training", "statement": "Trainer.train accepts a batch size exactly if it exceeds neither the training nor the validation part; in particular the documented condition (smaller than val_split times the set size) is sufficient.", "quantifier": "every data set size, batch size, split fraction in [0,1] and rounding", "why_tests_cant": "A condition over all sizes and fractions, with floating-point truncation.", "anchors": ["mlreflect/training/training.py: Trainer.train", "mlreflect/training/noise_generator.py: BaseGenerator.__init__"]}
{"id": "C93", "title": "Range getters return the points between the limits", "statement": "get_q_range(q_min, q_max) returns exactly the measured points with q_min <= q <= q_max.", "quantifier": "every scan with increasing q and all limits", "why_tests_cant": "The points at the ends of the range are lost or added depending on rounding to the closest point; a test with a generous range does not notice.", "anchors": ["mlreflect/xrrloader/dataloader/scans.py: get_q_range, _get_closest_index"]}
{"id": "C94", "title": "Gaussian footprint factor", "statement": "For a Gaussian beam the correction factor is 1/erf(sqrt(ln 2)*sample*sin(theta)/beam), is at least 1 and decreases with the angle up to 180 degrees.", "quantifier": "every positive geometry, every angle and every error function (odd, monotone, bounded, positive on positives)", "why_tests_cant": "Monotonicity over a continuum.", "anchors": ["mlreflect/xrrloader/footprint/footprint.py: gaussian_factors, beam_footprint_ratio"]}
{"id": "C95", "title": "Statistics of a scan series", "statement": "ScanSeries.stats returns for every scan its number of points and the smallest and largest q; it raises for a scan without points.", "quantifier": "every series", "why_tests_cant": "All lengths and orders.", "anchors": ["mlreflect/xrrloader/dataloader/scans.py: ScanSeries.stats"]}
{"id": "C96", "title": "Loading a SPEC scan end to end", "statement": "load_scan returns, for a scan of a SPEC file with the required columns, one point per data row: the scattering angle is the sum of the absolute values of the angle columns (zero replaced by 1e-6), the intensity is the intensity column times the attenuator column (with discontinuities corrected), divided by the division column, and the timestamp is the date line.", "quantifier": "every SPEC file, scan block, table and choice of columns", "why_tests_cant": "Combines the positions in the file, column lookup and corrections for all files.", "anchors": ["mlreflect/xrrloader/dataloader/spec_loader.py: load_scan", "mlreflect/xrrloader/parser/spec_parser.py: extract_scan", "mlreflect/xrrloader/dataloader/scans.py: ReflectivityScan.__init__"]}
{"id": "C97", "title": "Every readable scan with the required columns can be loaded", "statement": "load_scan accepts every scan of the file that has a readable table with all required columns.", "quantifier": "every SPEC file", "why_tests_cant": "The date line is optional in the file but required by the loader; test files always have one.", "anchors": ["mlreflect/xrrloader/dataloader/spec_loader.py: load_scan, load_scans"]}
{"id": "C98", "title": "Only theta-2theta scans are taken for reflectivity scans", "statement": "FioParser marks a scan as a theta-2theta scan exactly when its command moves both the theta and the two-theta motor; a file without such a command does not disturb the others.", "quantifier": "every scan command and every folder", "why_tests_cant": "The recognition searches for text anywhere in the command.", "anchors": ["mlreflect/xrrloader/parser/fio_parser.py: _is_theta2theta_scan, scan_info"]}
{"id": "C99", "title": "Motors of a scan command", "statement": "Scan objects name the motors of ascan, dscan, a2scan, d2scan, a3scan, d3scan, hscan, kscan, lscan and hklscan commands and take their positions from the columns of these motors.", "quantifier": "every command of these kinds and every table", "why_tests_cant": "The kind is recognised by a chain of overlapping text searches.", "anchors": ["mlreflect/xrrloader/p08tools/P08ScanTools.py: Scan.load_scan"]}
{"id": "C100", "title": "Momentum transfer of scan objects", "statement": "Scan.calc_q appends q = 4 pi / lambda sin(tt / 2), the same values as ReflectivityScan.q of the loaded scan, with the wavelength the package assigns to the photon energy.", "quantifier": "every scan over om and tt and every photon energy", "why_tests_cant": "Compares two independently written formulas for all angles and energies.", "anchors": ["mlreflect/xrrloader/p08tools/P08ScanTools.py: Scan.calc_q", "mlreflect/xrrloader/dataloader/fio_loader.py: load_scan", "mlreflect/xrrloader/dataloader/transform.py: energy_to_wavelength"]}
{"id": "C101", "title": "Combined detector pictures", "statement": "combine_scan_image_regions returns pictures in which every pixel is the attenuation-corrected pixel of the last scan whose region contains it, and zero outside all regions, without changing its arguments.", "quantifier": "every list of scans and regions, every picture size and every pixel", "why_tests_cant": "Needs all overlaps of regions at pixel level; the modification of the arguments only shows in a second call.", "anchors": ["mlreflect/xrrloader/p08tools/P08ScanTools.py: ScanAnalyzer.combine_scan_image_regions"]}
{"id": "C102", "title": "Loading a FIO scan end to end", "statement": "FioLoader.load_scan returns, for a two-motor reflectivity scan with the required columns, one point per data row: the two-theta column (zero replaced by 1e-6) and the counter times the attenuator column (with discontinuities corrected), divided by the division counter.", "quantifier": "every FIO file, table and choice of columns", "why_tests_cant": "Combines reader, command, detector files, column lookup and corrections for all files.", "anchors": ["mlreflect/xrrloader/dataloader/fio_loader.py: load_scan", "mlreflect/xrrloader/parser/fio_parser.py: extract_scan", "mlreflect/xrrloader/p08tools/fio_reader.py: read", "mlreflect/xrrloader/p08tools/P08ScanTools.py: Scan.load_scan"]}
{"id": "C103", "title": "Only lengths are made positive", "statement": "_ensure_positive_parameters replaces thicknesses and roughnesses by their absolute values and leaves scattering length densities unchanged; applying it twice changes nothing more.", "quantifier": "every table of parameters and every layer name", "why_tests_cant": "The columns are found by a text search in names that users choose.", "anchors": ["mlreflect/curve_fitter/curve_fitter.py: CurveFitter._ensure_positive_parameters"]}
{"id": "C104", "title": "Shift and factor correct the input", "statement": "Fitting a curve with dq and factor gives the parameters of fitting the rescaled curve at the shifted q values.", "quantifier": "every curve, shift, factor and set of options", "why_tests_cant": "Relates two calls for all combinations of options.", "anchors": ["mlreflect/curve_fitter/curve_fitter.py: CurveFitter.fit_curve"]}
{"id": "C105", "title": "Variants of a curve", "statement": "Shift variant j is the curve evaluated at the prediction q values minus shift j; scaling variant j is the curve times factor j; there are exactly n variants.", "quantifier": "every curve, q grid, number of variants and random stream", "why_tests_cant": "Sign and pairing of shifts and curves are invisible for symmetric random shifts.", "anchors": ["mlreflect/curve_fitter/minimizer.py: q_shift_variants, curve_scaling_variants"]}
{"id": "C106", "title": "reload by position or by keyword", "statement": "The methods fit, fit_range and show_scans treat a reload argument given by position like one given by keyword.", "quantifier": "both fitters, every state and argument", "why_tests_cant": "The decorator looks at keyword arguments only; visible only when the files change.", "anchors": ["mlreflect/curve_fitter/base_fitter.py: reload_scans"]}
{"id": "C107", "title": "Times of a series", "statement": "delta_t is the list of minutes since the first scan, in the order of the results, starting with 0; without times it is None.", "quantifier": "every series and every time format", "why_tests_cant": "All series.", "anchors": ["mlreflect/curve_fitter/results.py: FitResultSeries.delta_t", "mlreflect/xrrloader/dataloader/fio_loader.py: load_scan"]}
{"id": "C108", "title": "Error of a result", "statement": "FitResult.curve_mse is the mean squared difference of the decimal logarithms of predicted and corrected reflectivity, rounded; curves of different lengths are refused; without points, or with a value that is not positive and finite, the error is not finite.", "quantifier": "every result", "why_tests_cant": "All curves.", "anchors": ["mlreflect/curve_fitter/results.py: FitResult.curve_mse", "mlreflect/curve_fitter/minimizer.py: mean_squared_error"]}
{"id": "C109", "title": "Save paths and log directories", "statement": "Training under different model names or at different times uses different checkpoint paths and log directories; the directory of the checkpoint exists afterwards, no directory is lost, and the checkpoint is an .h5 file named after the time stamp.", "quantifier": "all strings", "why_tests_cant": "All names.", "anchors": ["mlreflect/models/model_helpers.py: make_save_path, make_tensorboard_callback, create_save_directory", "mlreflect/models/simple_model.py: SimpleModel._setup_training", "mlreflect/utils/h5_tools.py: strip_file_extension"]}
{"id": "C110", "title": "Errors of predictions", "statement": "The mean absolute error and mean absolute percentage error of every label compare predicted and true values of the same row and label.", "quantifier": "all tables", "why_tests_cant": "All tables and label orders.", "anchors": ["mlreflect/training/prediction.py: Prediction.mean_absolute_error, Prediction.mean_absolute_percentage_error"]}
{"id": "C111", "title": "Listing of scans", "statement": "show_scans lists every number from the smallest to the largest scan number within the limits once and in order, with the information of that scan, and as not found exactly if the scan does not exist.", "quantifier": "every file and all limits", "why_tests_cant": "All files and limits, gaps in the numbering.", "anchors": ["mlreflect/curve_fitter/spec_fitter.py: show_scans", "mlreflect/curve_fitter/fio_fitter.py: show_scans"]}
{"id": "C112", "title": "Contents of a result", "statement": "A FitResult of a scan holds the corrected curve and the q values of that scan with the angle offset, and the parameters and curve that fit_curve returns for them, all of matching lengths; scans of positive intensities can be fitted.", "quantifier": "every scan, offset, option and random stream, both fitters", "why_tests_cant": "Relates the stages of the whole pipeline for all inputs.", "anchors": ["mlreflect/curve_fitter/spec_fitter.py: fit", "mlreflect/curve_fitter/fio_fitter.py: fit", "mlreflect/curve_fitter/results.py: FitResult"]}
{"id": "C113", "title": "Interpolated curve of a result", "statement": "interpolated_corrected_reflectivity of a result is the curve that the network was evaluated on.", "quantifier": "every scan, q shift and factor", "why_tests_cant": "Two different ways to shift q in different files.", "anchors": ["mlreflect/curve_fitter/results.py: FitResult.interpolated_corrected_reflectivity", "mlreflect/curve_fitter/curve_fitter.py: fit_curve"]}
{"id": "C114", "title": "Time stamps", "statement": "Default time stamps sort as text in the order of the times, different seconds give different stamps in every style, stamps are plain file names without dots, and unknown styles are refused.", "quantifier": "all times of the years 1000 to 9999, all styles", "why_tests_cant": "All pairs of times.", "anchors": ["mlreflect/utils/naming.py: make_timestamp"]}
{"id": "C115", "title": "Attributes describe the saved data", "statement": "After save_data_as_h5 the info attributes are exactly those of the saved data, also if the file held other data before.", "quantifier": "every file and every table", "why_tests_cant": "Depends on the previous contents of the file.", "anchors": ["mlreflect/utils/h5_tools.py: save_data_as_h5, load_data"]}
{"id": "C116", "title": "Noise and background entries", "statement": "Saving noise or background replaces earlier noise or background of the same file, leaves the loaded data and all other entries and files unchanged, and is kept when data are saved.", "quantifier": "every file, name and array", "why_tests_cant": "All sequences of previous contents.", "anchors": ["mlreflect/utils/h5_tools.py: save_noise_as_h5, save_background_as_h5, save_data_as_h5"]}
{"id": "C117", "title": "Predicted labels", "statement": "predict_labels returns one row per curve with one column per label name, also for a single curve, and refuses a network with another number of outputs; the result can be compared with true labels.", "quantifier": "every network, every array of one or two dimensions, all label names", "why_tests_cant": "All shapes.", "anchors": ["mlreflect/training/prediction.py: Prediction.predict_labels", "mlreflect/utils/label_helpers.py: convert_to_dataframe"]}
{"id": "C118", "title": "SLD profiles of a series", "statement": "The SLD profiles of a series of results are the SLD profiles of its results, in order, each made of the parameters of that result.", "quantifier": "every series of complete results", "why_tests_cant": "All series; relates two code paths.", "anchors": ["mlreflect/curve_fitter/results.py: FitResult.sld_profile, FitResultSeries.sld_profiles"]}
{"id": "C119", "title": "Scan numbers as text", "statement": "int() of the text that an f-string writes for a scan number is that number.", "quantifier": "all integers", "why_tests_cant": "All integers, negative ones included.", "anchors": ["mlreflect/xrrloader/parser/spec_parser.py: SpecParser._index_scans", "mlreflect/curve_fitter/results.py: FitResultSeries.save_predicted_reflectivity"]}
{"id": "C120", "title": "Uniform noise", "statement": "apply_uniform_noise multiplies every point of every curve by its own factor from the given range and keeps the shape.", "quantifier": "every array of one or two dimensions, every range and random stream", "why_tests_cant": "All random streams.", "anchors": ["mlreflect/data_generation/noise.py: apply_uniform_noise"]}
{"id": "C121", "title": "The trained network meets the fitter's requirements", "statement": "A network with the layers built by Trainer._prepare_model returns one row per curve and one number per variable parameter, handles every curve independently of the others, and refuses curves of another length; hence the model trained on generated data can be used by CurveFitter.", "quantifier": "all weights, all samples, all batches of curves", "why_tests_cant": "All weights: tests train a single network.", "anchors": ["mlreflect/training/training.py: Trainer._prepare_model", "mlreflect/curve_fitter/curve_fitter.py: CurveFitter.fit_curve"]}
{"id": "C122", "title": "Reachable predictions", "statement": "SimpleModel (ReLU output) can only predict normalised labels of at least 0, i.e. with min_to_zero never below the minimum of a parameter, and can reach all those; the network of the trainer (linear output) can reach every label.", "quantifier": "all weights, all curves", "why_tests_cant": "All weights.", "anchors": ["mlreflect/models/simple_model.py: SimpleModel", "mlreflect/training/training.py: Trainer._prepare_model", "mlreflect/training/preprocessing.py: OutputPreprocessor.restore_labels"]}
{"id": "C123", "title": "Sensitivity of predictions", "statement": "If no input intensity changes by more than e, no output of the network changes by more than e times the product of the largest absolute row sums of the layers.", "quantifier": "all weights, all pairs of inputs", "why_tests_cant": "All weights and inputs.", "anchors": ["mlreflect/training/training.py: Trainer._prepare_model"]}
{"id": "C124", "title": "Generate, train, fit", "statement": "Generating at least two training curves for a valid sample stores labels and curves and fails only if a column of the perturbed curves is constant; training on them with fitting batches succeeds, and the trained model then fits every valid curve with one row of named parameters per curve.", "quantifier": "all samples, random streams, weights and curves", "why_tests_cant": "Composition of three classes under all random streams.", "anchors": ["mlreflect/training/training.py: Trainer.generate_training_data, Trainer.train", "mlreflect/curve_fitter/curve_fitter.py: CurveFitter.fit_curve"]}
{"id": "C125", "title": "Gaussian peaks", "statement": "ScanFitter._gauss is a bell curve: it has the value intensity/(|sigma| sqrt(2 pi)) plus background at the shift, is symmetric about the shift, falls strictly on both sides, has half of its height at |sigma| sqrt(2 ln 2), does not depend on the sign of sigma, and is NaN everywhere for sigma zero.", "quantifier": "all parameters and all points", "why_tests_cant": "Shape of a real function: no finite number of points shows it.", "anchors": ["mlreflect/xrrloader/p08tools/P08ScanTools.py: ScanFitter._gauss"]}
{"id": "C126", "title": "Lorentzian peaks", "statement": "ScanFitter._lorentzian has its maximum exactly at its position (and its negative), half of its height where the squares differ by width times position, and is symmetric about its position.", "quantifier": "all parameters and all points", "why_tests_cant": "Shape of a real function.", "anchors": ["mlreflect/xrrloader/p08tools/P08ScanTools.py: ScanFitter._lorentzian"]}
{"id": "C127", "title": "Sums of peaks", "statement": "_multi_gauss, _multi_voigt and _gauss_lorentzian evaluate the sum of all peaks plus the background once; the order of the peaks does not matter.", "quantifier": "all numbers of peaks, parameters and points", "why_tests_cant": "All numbers of peaks.", "anchors": ["mlreflect/xrrloader/p08tools/P08ScanTools.py: ScanFitter._multi_gauss, _multi_voigt, _gauss_lorentzian, _pseudo_voigt"]}
{"id": "C128", "title": "What simpleFit and multiVoigtFit fit and show", "statement": "The start values are the given parameters of the peaks of the fitted type in order, and the plot contains the data, the fit (sum of all peaks plus background) and one curve per peak under its name; failures are reported.", "quantifier": "all scans, regions, dictionaries of peaks and fit results", "why_tests_cant": "All peak dictionaries and all results of the optimiser.", "anchors": ["mlreflect/xrrloader/p08tools/P08ScanTools.py: ScanFitter.simpleFit, multiVoigtFit, ScanPlot.plotCurves"]}
{"id": "C129", "title": "gaussLorentzianFit fits one Gaussian and one Lorentzian", "statement": "Exactly one Gaussian and one Lorentzian, in either order, are fitted and shown under their names; any other peaks are refused.", "quantifier": "all scans, peaks and fit results", "why_tests_cant": "All dictionaries of peaks.", "anchors": ["mlreflect/xrrloader/p08tools/P08ScanTools.py: ScanFitter.gaussLorentzianFit"]}
{"id": "C130", "title": "Residuals vanish exactly for a perfect fit", "statement": "The minimised residuals are zero if and only if the curve equals the data, also with weights.", "quantifier": "all curves, data and weights", "why_tests_cant": "Equivalence over all curves.", "anchors": ["mlreflect/xrrloader/p08tools/P08ScanTools.py: ScanFitter.simpleFit, gaussLorentzianFit, multiVoigtFit"]}
{"id": "C131", "title": "multiFit returns a fit", "statement": "ScanFitter.multiFit fits and shows the given peaks.", "quantifier": "all scans, regions and peaks", "why_tests_cant": "It fails for every input; there are no tests.", "anchors": ["mlreflect/xrrloader/p08tools/P08ScanTools.py: ScanFitter.multiFit"]}
{"id": "C132", "title": "Exported text files", "statement": "export2ascii writes one line per point with the position of the named motor and the intensity of the region minus the background region, and changes no other file; unknown motors are refused.", "quantifier": "all scans, regions and file systems", "why_tests_cant": "All scans and regions.", "anchors": ["mlreflect/xrrloader/p08tools/P08ScanTools.py: ScanAnalyzer.export2ascii"]}
{"id": "C133", "title": "Written pictures", "statement": "writeHDF stores the pictures of the first detector and leaves other files alone; combined scans can be written and keep their composite pixels.", "quantifier": "all scans and detector files", "why_tests_cant": "All numbers of pictures and regions.", "anchors": ["mlreflect/xrrloader/p08tools/P08ScanTools.py: ScanAnalyzer.writeHDF, combine_scan_image_regions"]}
{"id": "C134", "title": "Intensities shown by plotRois", "statement": "Every panel shows the intensity per pixel of its region minus the background per pixel against the chosen motor.", "quantifier": "all scans, regions and motors", "why_tests_cant": "All regions.", "anchors": ["mlreflect/xrrloader/p08tools/P08ScanTools.py: ScanPlot.plotRois"]}
{"id": "C135", "title": "Panels of plotRois", "statement": "plotRois shows one panel per region (without the background) and one for the whole picture, numbered in the order of their names.", "quantifier": "all numbers of regions", "why_tests_cant": "All numbers of regions.", "anchors": ["mlreflect/xrrloader/p08tools/P08ScanTools.py: ScanPlot.plotRois"]}
{"id": "C136", "title": "Signal counter and UB matrix of FIO files", "statement": "The last definition of the signal counter and of the UB matrix in the parameter block is read, whatever else the block contains and however the key is capitalised; without one there is no entry.", "quantifier": "all files with comment, parameter and data blocks; all spellings, blanks and numbers", "why_tests_cant": "All texts of a file.", "anchors": ["mlreflect/xrrloader/p08tools/fio_reader.py: read"]}
{"id": "C137", "title": "Reading only the header", "statement": "With header_only the reader returns the same motors, column names, command, regions, signal counter and UB matrix as without, and no data.", "quantifier": "all files with comment, parameter and data blocks", "why_tests_cant": "All files.", "anchors": ["mlreflect/xrrloader/p08tools/fio_reader.py: read"]}
{"id": "C138", "title": "Pictures loaded for a scan", "statement": "load_image_stack stores for every detector of the scan its pictures: for lambda and eiger the pictures of the HDF5 file whose number is in the index column (all without one), for the line detector all profile files in the order of their names; entry i belongs to point i (\"data index and image index are matching\").", "quantifier": "all scans, index columns, detector files and scan names", "why_tests_cant": "All index columns and folder contents.", "anchors": ["mlreflect/xrrloader/p08tools/P08ScanTools.py: Scan.load_image_stack, _load_lambda, _load_eiger, _load_mythen"]}
{"id": "C139", "title": "Order of loading pictures and removing repeated points", "statement": "Removing repeated points before or after loading the pictures leaves the same pictures, one per remaining point.", "quantifier": "all scans, positions and detector files", "why_tests_cant": "Depends on the history of the object.", "anchors": ["mlreflect/xrrloader/p08tools/P08ScanTools.py: Scan.remove_double, _remove_double_fromstack, load_image_stack"]}
{"id": "C140", "title": "FIO tables with repeated column names", "statement": "Whatever the file, a column name that occurs j times gets one entry for the first data line and j for each further line; the table of a scan is accepted exactly if all columns have the same length, so distinct names are always accepted.", "quantifier": "all files and column names", "why_tests_cant": "All texts of a file.", "anchors": ["mlreflect/xrrloader/p08tools/fio_reader.py: read", "mlreflect/xrrloader/parser/fio_parser.py: FioParser.parse_fio"]}
{"id": "C141", "title": "Fitted parameters are the rescaled network outputs", "statement": "Without polishing and unless both optimisations are on, fit_curve returns for curve i and label k: minimum + output * (maximum - minimum) of the range of k (absolute value for lengths), where the outputs are the network's answer to the standardised curves interpolated to the trained q values; constants keep their value.", "quantifier": "all samples, networks, curves, q values and options", "why_tests_cant": "All networks, samples and curves.", "anchors": ["mlreflect/curve_fitter/curve_fitter.py: CurveFitter.fit_curve, _interpolate_intensity", "mlreflect/data_generation/preprocessing.py: OutputPreprocessor.restore_labels"]}
{"id": "C142", "title": "A network that is right makes the fit exact", "statement": "If the outputs of the network are those that belong to the labels, the fit returns exactly these labels, with all columns in order; and if the curves were simulated from the labels, the returned curves are the given curves.", "quantifier": "all samples, tables of labels with lengths >= 0, networks, curves and options without polishing", "why_tests_cant": "End-to-end identity over all label tables.", "anchors": ["mlreflect/curve_fitter/curve_fitter.py: CurveFitter.fit_curve", "mlreflect/data_generation/reflectivity.py: ReflectivityGenerator.simulate_reflectivity"]}
{"id": "C143", "title": "Returned curves belong to the returned parameters", "statement": "Row i of predicted_reflectivity is the curve simulated without noise from row i of predicted_parameters at the given q values, with or without polishing and optimisation; rows with a value that is not a number give curves that are not numbers.", "quantifier": "all samples, networks, optimisers, curves and options", "why_tests_cant": "All optimiser results and options.", "anchors": ["mlreflect/curve_fitter/curve_fitter.py: CurveFitter.fit_curve"]}
{"id": "C144", "title": "Polishing never makes a fit worse", "statement": "For an optimiser that does not increase the residuals, the mean squared logarithmic error of the polished parameters over the trained q range is at most that of the unpolished parameters.", "quantifier": "all samples, networks, optimisers that descend, curves and options", "why_tests_cant": "Compares two runs for all optimisers.", "anchors": ["mlreflect/curve_fitter/curve_fitter.py: CurveFitter.fit_curve, _ensure_positive_parameters", "mlreflect/curve_fitter/minimizer.py: least_log_mean_squares_fit"]}
{"id": "C145", "title": "The plot of a fit shows the data, the prediction and the right numbers", "statement": "plot_prediction draws the measured and the predicted intensities over the same q values under their labels, with the scan number and time in the title, and prints for every requested parameter its name, value and unit, then the error of the curves; a parameter that is not in the result is refused. Lengths are shown in Angstrom and scattering length densities in 10^-6 per square Angstrom.", "quantifier": "all fit results and lists of parameters", "why_tests_cant": "All results, layer names and parameter lists.", "anchors": ["mlreflect/curve_fitter/results.py: FitResult.plot_prediction, FitResult._annotate_plot"]}
{"id": "C146", "title": "The plot of a series shows every result of every parameter", "statement": "plot_predicted_parameter_range draws one panel per parameter in the given order; point j is the value of the j-th result at its scan number, or at the minutes since the first scan if times are requested and known. The documented parameter values thickness, roughness and sld work.", "quantifier": "all series, lists of parameters and formats of the horizontal axis", "why_tests_cant": "All series and parameter lists.", "anchors": ["mlreflect/curve_fitter/results.py: FitResultSeries.plot_predicted_parameter_range, FitResultSeries.delta_t"]}
{"id": "C147", "title": "The colours of the profiles match the colour bar", "statement": "plot_sld_profiles draws the profile of every result; the colour of a profile is the one the colour bar shows at its scan number.", "quantifier": "all series of results", "why_tests_cant": "All series of scan numbers.", "anchors": ["mlreflect/curve_fitter/results.py: FitResultSeries.plot_sld_profiles"]}
{"id": "C148", "title": "A plot of a scan series shows the requested scans", "statement": "plot_series draws the corrected intensity over q of all scans, or of those in scan_range, each under its scan number, all points if no limits of q are given; an empty series shows nothing; append accepts scans only. The plots of one scan show its raw or corrected intensity over q between the points closest to the limits.", "quantifier": "all series, ranges and limits", "why_tests_cant": "All series and ranges.", "anchors": ["mlreflect/xrrloader/dataloader/scans.py: ScanSeries.plot_series, ScanSeries.append", "mlreflect/xrrloader/dataloader/scans.py: ReflectivityScan.plot_raw_intensity, plot_corrected_intensity"]}
{"id": "C149", "title": "The printed sample is unambiguous and its numbers are the indices", "statement": "print(sample) lists ambient layer, layers from top to bottom and substrate; two samples with the same text have the same layers with the same names and values. The printed number of a layer is its index in the sample.", "quantifier": "all samples with one-line names", "why_tests_cant": "Injectivity over all samples.", "anchors": ["mlreflect/data_generation/multilayer.py: MultilayerStructure.__str__, __getitem__, __len__, __iter__", "mlreflect/data_generation/layers.py: __str__", "mlreflect/data_generation/parameters.py: __str__"]}
{"id": "C150", "title": "Constant parameters compare like their values", "statement": "The six comparisons of a ConstantParameter with another one or with a number hold exactly if they hold of the values; other objects are refused with a TypeError.", "quantifier": "all values and operands", "why_tests_cant": "All numbers, real and complex.", "anchors": ["mlreflect/data_generation/parameters.py: ConstantParameter.__eq__, __ne__, __lt__, __le__, __gt__, __ge__, __float__"]}
{"id": "C151", "title": "The ranges of a layer are the limits of its parameters", "statement": "ranges lists the minimum and maximum of exactly the parameters the layer has, the minimum below the maximum or equal to it for constants.", "quantifier": "all layers of all four classes", "why_tests_cant": "All layers.", "anchors": ["mlreflect/data_generation/layers.py: Layer.ranges, ConstantLayer.ranges, Substrate.ranges, AmbientLayer.ranges"]}
{"id": "C152", "title": "The reflectivity falls at least like q^-4", "statement": "Every simulated value is at most (32*pi*V/q^2)^2, where V is the sum of the steps of the SLD from the vacuum to the substrate; for q^2 above 32*pi*V the engine always yields a number.", "quantifier": "any number of rough layers with non-negative thickness and absorption, every q other than 0", "why_tests_cant": "A bound over all stacks and all q.", "anchors": ["mlreflect/data_generation/reflectivity.py: multilayer_reflectivity, _get_relative_kz, _make_reflection_matrix, _make_translation_matrix"]}
{"id": "C153", "title": "Porod law of a bare substrate", "statement": "For a smooth substrate of SLD s, q^4*R(q) tends to (4*pi*|s|)^2, with explicit bounds on both sides for q^2 > 16*pi*|s|.", "quantifier": "all complex SLDs with non-negative imaginary part, all large q", "why_tests_cant": "A limit.", "anchors": ["mlreflect/data_generation/reflectivity.py: multilayer_reflectivity, _get_relative_kz, _make_reflection_matrix, _make_translation_matrix"]}
{"id": "C154", "title": "Total reflection below the critical edge", "statement": "A smooth transparent substrate reflects everything below its critical edge, up to 16*pi*1e-30/(q*kappa) due to the artificial absorption (kappa: damping of the evanescent wave).", "quantifier": "all positive SLDs, every q below the edge", "why_tests_cant": "All q of an interval.", "anchors": ["mlreflect/data_generation/reflectivity.py: multilayer_reflectivity, _get_relative_kz, _make_reflection_matrix, _make_translation_matrix"]}
{"id": "C155", "title": "Roughness lowers the reflectivity of a bare substrate above its critical edge", "statement": "For q^2 >= 16*pi*Re(SLD) the reflectivity does not grow with the modulus of the roughness. For q^2 < 8*pi*SLD of a transparent substrate any roughness raises it (through the artificial absorption).", "quantifier": "all roughnesses, SLDs and q", "why_tests_cant": "Monotone in a real argument.", "anchors": ["mlreflect/data_generation/reflectivity.py: multilayer_reflectivity, _get_relative_kz, _make_reflection_matrix, _make_translation_matrix"]}
{"id": "C156", "title": "An opaque film hides what lies beneath it", "statement": "The reflectivity of a smooth stack differs from that of a block of the material of its top film by at most 4E/(1-E), where E bounds the amplitude returning through the film; with growing thickness the difference vanishes uniformly in the layers beneath.", "quantifier": "every film, everything beneath it, every q", "why_tests_cant": "Uniform limit over all stacks.", "anchors": ["mlreflect/data_generation/reflectivity.py: multilayer_reflectivity, _get_relative_kz, _make_reflection_matrix, _make_translation_matrix"]}
{"id": "C157", "title": "Restored labels in double precision", "statement": "In IEEE double arithmetic labels restored from values between 0 and 1 are finite, monotone, at least the minimum, and at most the maximum; normalising and restoring a label gives it back up to 2^-50 of the largest limit, exactly for the minimum. A restored label differs from the exact one by at most 2^-50 of the larger limit (and 2^-1073).", "quantifier": "all ranges of double numbers below 2^1000, all labels within", "why_tests_cant": "Every pair of limits and every number between them; the exceptions are single bits.", "anchors": ["mlreflect/training/preprocessing.py: OutputPreprocessor.normalize_labels, renormalize_labels"]}
{"id": "C158", "title": "Interpolation in double precision", "statement": "In IEEE double arithmetic linear interpolation returns the data exactly at data points and stays between the neighbouring values elsewhere. An interpolated value differs from the exact one by at most 2^-49 of the left value and the step from it (and 2^-1073 times one plus the distance from the left point).", "quantifier": "all segments with a finite slope", "why_tests_cant": "All double numbers.", "anchors": ["mlreflect/data_generation/interpolation.py: interp_reflectivity"]}
{"id": "C159", "title": "The simulated reflectivity is continuous", "statement": "For a passive stack at which the engine is regular, converging q and converging layer parameters give converging reflectivities (and the engine eventually yields numbers). For a stack regular at all q the reflectivity is a continuous function of q.", "quantifier": "every stack of any length, every filter along which the parameters converge", "why_tests_cant": "A limit in all arguments at once.", "anchors": ["mlreflect/data_generation/reflectivity.py: multilayer_reflectivity, _get_relative_kz, _make_reflection_matrix, _make_translation_matrix"]}
{"id": "C160", "title": "A film of vacuum changes nothing", "statement": "A film with SLD 0 of thickness d on top of a sample changes the reflectivity by at most 16*pi*1e-30*d/|q|, whatever its roughness; a result that is not a number stays so.", "quantifier": "all stacks, thicknesses, roughnesses and q other than 0", "why_tests_cant": "All stacks; the change is far below any test tolerance and comes only from the artificial absorption.", "anchors": ["mlreflect/data_generation/reflectivity.py: multilayer_reflectivity, _get_relative_kz, _make_reflection_matrix, _make_translation_matrix"]}
{"id": "C161", "title": "Seeds make a session reproducible; the last seed counts for all objects", "statement": "After a generator or trainer was made with a seed from 0 to 2^32-1, everything that follows is independent of the previous random state. Seeds are not kept per object: making a second seeded trainer cancels the seed of the first, so the labels drawn by a generator do not depend on its own seed only.", "quantifier": "all sequences of operations (new samples, edits, trainers, data generation, training, saving, loading), all states of the world that differ in the random state only", "why_tests_cant": "All interleavings of several objects.", "anchors": ["mlreflect/data_generation/data_generator.py: ReflectivityGenerator.__init__, generate_random_labels", "mlreflect/training/training.py: Trainer.__init__, generate_training_data"]}
{"id": "C162", "title": "What a trained model shares with its trainer", "statement": "A trained model keeps its network, statistics and sample through any sequence of operations in which the trainer that shares its network does not train again and its sample is not changed; at most one trainer shares the network. A second train() changes the network of the model returned by the first, while its mean and standard deviation stay.", "quantifier": "all sequences of operations from the empty session", "why_tests_cant": "Aliasing over all histories.", "anchors": ["mlreflect/training/training.py: Trainer.train", "mlreflect/models/trained_model.py: TrainedModel.from_variable"]}
{"id": "C163", "title": "Saved models are independent, trained models follow the sample object", "statement": "A model that is saved and loaded later has the network, statistics and sample of the moment of saving whatever happens in between, and is independent of every trainer. A trained model in memory follows later changes of the sample object that the trainer was given (its label names change).", "quantifier": "all sequences of operations that do not overwrite the file", "why_tests_cant": "Aliasing over all histories.", "anchors": ["mlreflect/models/trained_model.py: TrainedModel.save_model, from_file, from_variable", "mlreflect/training/training.py: Trainer.__init__, train"]}
{"id": "C164", "title": "A sample is the sequence substrate, films, ambient", "statement": "Indexing, length, slicing and iteration of a sample agree: element 0 is the substrate, element -1 the ambient, element i+1 film i counted from below; the length is the number of films plus two and never zero; every other index raises IndexError; sample[1:-1] are the films.", "quantifier": "all samples, all integer indices", "why_tests_cant": "Negative and out-of-range indices for every number of layers.", "anchors": ["mlreflect/data_generation/multilayer.py: MultilayerStructure.__getitem__, __len__, __iter__, _sample_structure"]}
{"id": "C165", "title": "Only layers can be put into a sample", "statement": "Passing something that is not a layer to set_ambient_layer, set_substrate or add_layer raises ValueError and leaves the sample as it was.", "quantifier": "all samples of both classes, all arguments", "why_tests_cant": "Both classes, all methods.", "anchors": ["mlreflect/data_generation/multilayer.py: MultilayerStructure._check_layer_type, LayerOnSubstrate.add_layer"]}
{"id": "C166", "title": "Each place of a sample holds a layer of its class", "statement": "The substrate of a sample has no thickness, the ambient layer neither thickness nor roughness, and every film has a thickness, a roughness and an SLD, after every sequence of calls.", "quantifier": "all sequences of set_ambient_layer, set_substrate, add_layer and from_dict calls on both sample classes", "why_tests_cant": "All histories.", "anchors": ["mlreflect/data_generation/multilayer.py: MultilayerStructure.set_ambient_layer, set_substrate, add_layer, from_dict"]}
{"id": "C167", "title": "A copy of a sample behaves like the original", "statement": "sample.copy() is a sample of the same class with the same layers; what the original refuses, the copy refuses too.", "quantifier": "all samples with valid layers", "why_tests_cant": "All samples and later calls.", "anchors": ["mlreflect/data_generation/multilayer.py: MultilayerStructure.copy, __copy__, LayerOnSubstrate"]}
{"id": "C168", "title": "A LayerOnSubstrate is restored by from_dict", "statement": "from_dict on a new LayerOnSubstrate, given the dictionary of a LayerOnSubstrate, restores all its layers.", "quantifier": "all storable samples", "why_tests_cant": "All samples; tests only restore MultilayerStructure objects.", "anchors": ["mlreflect/data_generation/multilayer.py: MultilayerStructure.from_dict, LayerOnSubstrate.add_layer"]}
{"id": "C169", "title": "Interpolated scans and arrays of scans", "statement": "get_interpolated_intensity returns the corrected intensities at the scan's own q values, is log-linear between neighbouring points, and stays within (0, 1] for scans normalised to their maximum. to_array has the corrected intensity of scan i as row i when the scans have equal lengths, an array of objects otherwise, and raises only if a scan does. append takes scans only. The length of a scan is the number of its q values.", "quantifier": "all scans and series, all new q values", "why_tests_cant": "All grids and curves.", "anchors": ["mlreflect/xrrloader/dataloader/scans.py: ReflectivityScan.get_interpolated_intensity, __len__, ScanSeries.append, to_array"]}
{"id": "C170", "title": "The Gaussian kernel is normalised", "statement": "_make_gaussian returns positive, symmetric weights of a Gaussian around the middle of x, and they sum to one.", "quantifier": "all non-empty x, all positive standard deviations and cut-offs", "why_tests_cant": "All grids.", "anchors": ["mlreflect/data_generation/data_generator.py: ReflectivityGenerator._make_gaussian"]}
{"id": "C171", "title": "The timer decorator prints the run time", "statement": "A function decorated with timer has the same results, effects and exceptions as the function itself, and its run time can be printed.", "quantifier": "all functions, arguments and states", "why_tests_cant": "All decorated functions.", "anchors": ["mlreflect/utils/performance_tools.py: timer"]}
{"id": "C172", "title": "Row-wise application to curves", "statement": "A function decorated with iterate_over_curves is applied to a single curve, or to every row of a two-dimensional array in order, keeping the number of dimensions; other dimensions raise ValueError.", "quantifier": "all functions on curves, all arrays", "why_tests_cant": "All functions and shapes.", "anchors": ["mlreflect/data_generation/noise.py: iterate_over_curves"]}
{"id": "C173", "title": "Preprocessing values are loaded from a text file", "statement": "A text file with one line 'mean std' per q value is loaded as mean and standard deviation; any other file leaves the model as it was and raises.", "quantifier": "all files of numbers", "why_tests_cant": "All shapes of files.", "anchors": ["mlreflect/models/trained_model.py: TrainedModel._load_ip_values"]}
{"id": "C174", "title": "Labels as arrays and back", "statement": "convert_to_ndarray inverts convert_to_dataframe for two-dimensional arrays, keeps arrays as they are and raises TypeError for anything else; _wrap_ndarray_in_list wraps a single array and keeps lists.", "quantifier": "all label arrays and names", "why_tests_cant": "All shapes.", "anchors": ["mlreflect/utils/label_helpers.py: convert_to_dataframe, convert_to_ndarray", "mlreflect/training/prediction.py: Prediction._wrap_ndarray_in_list"]}
{"id": "C175", "title": "Setting up a file fitter", "statement": "A file fitter on which set_file was never called raises in fit, fit_range and show_scans and stays unchanged; set_file raises TypeError until the footprint parameters (for SPEC files also the import parameters) are set, and then works for every readable file with the parameters set last, in whatever order they were set; without a trained model a loadable scan cannot be fitted (AttributeError).", "quantifier": "all histories of method calls and file changes, all files and parameters", "why_tests_cant": "All call orders.", "anchors": ["mlreflect/curve_fitter/base_fitter.py: reload_scans", "mlreflect/curve_fitter/spec_fitter.py: SpecFitter.set_file, set_import_parameters, set_footprint_parameters, fit, fit_range, show_scans", "mlreflect/curve_fitter/fio_fitter.py: FioFitter"]}
{"id": "C176", "title": "Simulated curves have the units of the labels", "statement": "With the built-in engine, simulate_reflectivity for labels in angstrom and 1e-6/A^2 and q in 1/A returns exactly the Parratt curve of the row's stack with these very numbers in angstrom units (the conversions to SI cancel), for passive stacks below a zero-density ambient and absolute noise 0; for stacks without roughness and with thickness the amplitude is defined; for solid stacks every defined value at q <> 0 is between 0 and (32 pi variation 1e-6 / q^2)^2, with the variation of the scattering length density in label units.", "quantifier": "all samples, label tables, q grids, random streams", "why_tests_cant": "All samples and label values; a wrong power of ten in one conversion can hide in any parameter.", "anchors": ["mlreflect/data_generation/data_generator.py: ReflectivityGenerator.simulate_reflectivity, _simulate_reflectivities", "mlreflect/data_generation/reflectivity.py: multilayer_reflectivity"]}
{"id": "C177", "title": "Generated training data are physical", "statement": "Whatever numbers are drawn, labels made by generate_random_labels for a passive, solid sample under vacuum are simulated without an exception by the built-in engine, each row's stack is again passive and solid, and each curve is the predicted one of that stack with every defined value between 0 and 1; for storable samples and ordinary distribution parameters generation and simulation succeed with one curve per row and one value per q.", "quantifier": "all random number streams, samples, numbers of curves, q grids", "why_tests_cant": "Random inputs and all samples.", "anchors": ["mlreflect/data_generation/data_generator.py: ReflectivityGenerator.generate_random_labels, simulate_reflectivity", "mlreflect/data_generation/reflectivity.py: multilayer_reflectivity"]}
{"id": "C178", "title": "Containers of trained models in every state", "statement": "What is saved from a complete TrainedModel under an .h5/.hdf5/.keras name comes back into any other container, whatever is done in between with containers and other files; a load succeeds exactly if the file has all parts and then leaves nothing of the old content; a save succeeds exactly if every field has a value and the sample is JSON-able. Refuted: a failed save leaves the old file (it always makes it unloadable), and a failed load leaves the container unchanged (a file with only a keras model replaces the network and keeps the old sample and standardization). Under other names nothing loadable can be saved.", "quantifier": "all containers (including partly filled ones), all disk states, all histories of from_variable, from_file and save_model calls", "why_tests_cant": "All histories and half-written files.", "anchors": ["mlreflect/models/trained_model.py: TrainedModel.__init__, from_variable, from_file, save_model"]}
{"id": "C179", "title": "Checkpoints of a training", "statement": "SimpleModel.train and train_with_generator run the given number of epochs one after the other and return their losses and learning rates with the time stamp of the checkpoint file; the file holds network and learning rate of the first epoch with the lowest validation loss (nan and infinite losses never count; without a usable loss it is not written), the model itself keeps the network of the last epoch, and no other file is touched. Refuted: a checkpoint can be loaded as TrainedModel (KeyError, and the container is left with the new network and the old sample); trainings within the same second keep separate checkpoints (the second overwrites the first however good it was).", "quantifier": "all effects of an epoch on network, random state and loss, all models, directories, times, epoch numbers and file systems", "why_tests_cant": "All loss sequences including nan, all orders of trainings; real trainings are slow and random.", "anchors": ["mlreflect/models/simple_model.py: SimpleModel.train, train_with_generator, _setup_training", "mlreflect/models/trained_model.py: from_file", "mlreflect/utils/naming.py: make_timestamp"]}
{"id": "C180", "title": "Learning rates", "statement": "In every training of a SimpleModel or Trainer the learning rate starts at that of the model, changes only by being halved, only after ten epochs none of which was better than an earlier one by more than 1e-4, and does get smaller whenever ten epochs are not better than an earlier one; it is halved at most once every ten epochs, exactly every ten if no loss is usable, and stays positive. Refuted: every training starts with the learning rate of a new model (after a plateau the next training starts with the reduced rate).", "quantifier": "all loss sequences, all positive learning rates, all numbers of epochs and trainings", "why_tests_cant": "All loss sequences.", "anchors": ["mlreflect/models/simple_model.py: SimpleModel.__init__, train, train_with_generator, _setup_training", "mlreflect/training/training.py: Trainer.train, _prepare_callbacks"]}
{"id": "C181", "title": "Models of a ModelMixer", "statement": "After any calls of add_model the i-th model, weight (1 if not given) and generator of a ModelMixer are those of the i-th call, and all generators have the mixer's q values; models are drawn with probabilities in the ratio of their weights, so that a common factor makes no difference; without models or with weights that sum to 0 curves are refused. In double precision the probabilities for weights that are not negative are between 0 and 1, keep the order of the weights, have a relative error of at most 2^-31 and sum to 1 within 2^-30, for up to a million models and without overflow.", "quantifier": "every sequence of calls, all samples and weights", "why_tests_cant": "All sequences of calls and weights.", "anchors": ["mlreflect/data_generation/model_mixer.py: ModelMixer.__init__, add_model, _add_generator, simulate_reflectivity"]}
{"id": "C182", "title": "Loss of labels", "statement": "log_mse_loss is the mean squared difference between the decimal logarithms of the data and the logarithms that the model function of the fit gives for the same labels; it is never negative, it is 0 only if the data equal the simulated curve, it is not finite if a value is not positive and finite, and curves of different lengths are refused.", "quantifier": "all labels, curves, samples and preprocessors", "why_tests_cant": "All labels and curves of real numbers.", "anchors": ["mlreflect/curve_fitter/minimizer.py: log_mse_loss, mean_squared_error, create_fit_prep_refl_curve"]}
{"id": "C183", "title": "What a simulated curve tells about the labels", "statement": "Rows of label tables that describe the same material at every depth have exactly the same simulated curve, so that no function of the curve recovers the labels of both if they differ; on the other hand one point above the critical edge determines the roughness of a bare substrate of known material, and the curve beyond any q determines the modulus of the scattering length density of a smooth one.", "quantifier": "all samples, label tables and q values", "why_tests_cant": "All stacks, all q values and all functions of the curve.", "anchors": ["mlreflect/data_generation/reflectivity.py: multilayer_reflectivity", "mlreflect/data_generation/data_generator.py: simulate_reflectivity"]}
{"id": "C184", "title": "Inputs that fit_curve refuses", "statement": "fit_curve raises ValueError if there are no q values, if a curve does not have as many points as there are q values, and for a negative number of shifts or scaling factors; without optimisations and polishing it succeeds exactly if there are q values and all curves have their number.", "quantifier": "all curves, q values and options", "why_tests_cant": "All curves, q values and options.", "anchors": ["mlreflect/curve_fitter/curve_fitter.py: CurveFitter.fit_curve", "mlreflect/curve_fitter/minimizer.py: q_shift_variants, curve_scaling_variants"]}
{"id": "C185", "title": "Batch generators as they are constructed", "statement": "A NoiseGenerator, UniformNoiseGenerator or NoiseGeneratorLog uses the batch size, order, noise, background and scaling that it is constructed with; without these arguments the batch size is 32, the order is shuffled and the curves are changed only by the standardisation or the logarithm; fewer curves than the batch size are refused; this remains so after any accesses, ends of epochs and other uses of the random numbers, which change neither the stored curves nor the statistics.", "quantifier": "all arguments, curves, labels, epochs and batches", "why_tests_cant": "All arguments, random draws and epochs.", "anchors": ["mlreflect/training/noise_generator.py: NoiseGenerator.__init__, UniformNoiseGenerator.__init__, NoiseGeneratorLog.__init__"]}
{"id": "C186", "title": "Mean squared errors and the choice of a variant in double precision", "statement": "Whatever the order of summation, the mean squared error that is computed in double precision has the relative error of k + 4 roundings (k being the longest chain of additions), which is below 2^-32 up to a million, apart from underflow; the variant with the least computed error is the best one up to these errors, the first one among equal errors, and equal curves have the error 0.", "quantifier": "all arrays of finite floats without overflow, all orders of summation, all lists of variants", "why_tests_cant": "All floats and all orders of summation.", "anchors": ["mlreflect/curve_fitter/minimizer.py: curve_variant_log_mse, mean_squared_error", "mlreflect/curve_fitter/curve_fitter.py: CurveFitter._optimize_q, _optimize_scaling"]}
{"id": "C187", "title": "Standardisation in double precision", "statement": "Without overflow the standardised value of a float has an error of at most three roundings, the order of the data is kept and the mean becomes 0; revert_standardization returns the float up to 6 units of 2^-53 of its size and its distance from the mean (and underflow), but not always exactly.", "quantifier": "all floats, means and non-zero standard deviations", "why_tests_cant": "All floats.", "anchors": ["mlreflect/training/preprocessing.py: standardize, revert_standardization"]}
{"id": "C188", "title": "Generators without statistics and with missing labels", "statement": "With a preprocessor without statistics, UniformNoiseGenerator saves the column means and standard deviations of its first batch (after noise and scaling) and standardises this and all later batches with them; the batch is refused if one of its columns is constant (ValueError) or if it has a single curve (TypeError). If there are fewer labels than curves, every batch with a curve that has no label raises IndexError.", "quantifier": "all curves, labels, random draws, batch numbers and epochs", "why_tests_cant": "All random draws and orders.", "anchors": ["mlreflect/training/noise_generator.py: BaseGenerator, NoiseGenerator, UniformNoiseGenerator, NoiseGeneratorLog", "mlreflect/training/preprocessing.py: standardize"]}
{"id": "C189", "title": "Uniform draws in double precision", "statement": "In IEEE double arithmetic a number drawn by np.random.uniform from a range whose width does not overflow is finite and lies within the range without any tolerance, follows the order of the random numbers, is the minimum for the random number 0 and the exact value up to a few roundings; the maximum can be drawn. A curve value multiplied by such a factor (noise, scaling) lies between its products with the limits.", "quantifier": "all ranges of double numbers, all random numbers from 0 to 1 - 2^-53, all curve values that are not negative", "why_tests_cant": "The limits are approached in single bits, for every pair of limits and every random number.", "anchors": ["mlreflect/data_generation/distributions.py: sample_distribution, bolstered_uniform_distribution", "mlreflect/data_generation/noise.py: apply_uniform_noise, apply_scaling_factor"]}
{"id": "C190", "title": "Batch sizes that are not positive", "statement": "The generators accept batch sizes 0 and below. Their number of batches is then refused: ZeroDivisionError for 0, ValueError below (if there are curves). With 0 every batch is empty; with -k the first batch holds all curves but k, each with its label, and the following ones are empty.", "quantifier": "all curves, labels, batch sizes up to 0 and orders of the curves", "why_tests_cant": "All sizes, batch numbers and shuffled orders.", "anchors": ["mlreflect/training/noise_generator.py: BaseGenerator.__init__, __len__, __getitem__"]}
{"id": "C191", "title": "Distance of two curves in the P08 tools", "statement": "diff_func of positive curves of one length is the sum of the absolute decadic logarithms of their ratios: not negative, symmetric, 0 only for equal curves, with the triangle inequality, and unchanged by a common factor. A value that is not positive makes it infinite or NaN; different lengths other than 1 raise ValueError.", "quantifier": "all curves of real numbers", "why_tests_cant": "The triangle inequality and the invariance hold for all curves.", "anchors": ["mlreflect/xrrloader/p08tools/P08ScanTools.py: ScanFitter.diff_func"]}
{"id": "C192", "title": "Curves rescaled to a maximum in double precision", "statement": "In IEEE double arithmetic a curve without negative values, divided by its maximum and multiplied by the maximum of the original curve, has exactly this maximum, lies between 0 and it and keeps the order of its values. It has one value for every value of the curve, each exact up to two roundings.", "quantifier": "all curves of finite double numbers with a positive maximum, all original maxima", "why_tests_cant": "Whether the maximum is hit or passed is a matter of single bits, for every pair of maxima.", "anchors": ["mlreflect/training/footprint.py: normalize_to_max"]}
{"id": "C193", "title": "Energies and wavelengths in double precision", "statement": "In IEEE double arithmetic the wavelength of an energy is positive, is 12398 / energy up to a relative error of 4 * 2^-53, and does not grow with the energy; converting back gives the energy up to a relative error of 5 * 2^-53, but not always exactly (8000 eV).", "quantifier": "all double energies from 2^-500 to 2^500", "why_tests_cant": "Every energy has its own rounding errors.", "anchors": ["mlreflect/xrrloader/dataloader/transform.py: energy_to_wavelength, wavelength_to_energy"]}
{"id": "C194", "title": "File names of scans", "statement": "Different scan numbers of a FIO parser, also negative ones, never share a file. The number in the name is written with leading zeros to five characters, more only if it needs them, and with a minus sign if it is negative.", "quantifier": "all parsers and integer scan numbers", "why_tests_cant": "All pairs of numbers.", "anchors": ["mlreflect/xrrloader/parser/fio_parser.py: FioParser.parse_fio, extract_scan"]}
{"id": "C195", "title": "Heights of a profile in double precision", "statement": "In IEEE double arithmetic the heights of a scattering length density profile begin exactly at the start, increase strictly and differ from the exact ones by at most 2^-16; their number is within one of the exact one; the last height is at most 2^-15 above the end and at most 0.1 + 2^-15 below it. The end can be passed (from -16.3 to 16.6).", "quantifier": "all starts up to 1024 and ends up to 2^20 in absolute value", "why_tests_cant": "Whether one more height appears depends on single bits of the limits.", "anchors": ["mlreflect/data_generation/data_generator.py: make_sld_profile"]}
{"id": "C196", "title": "Shifted q values in double precision", "statement": "In IEEE double arithmetic q values shifted by one number are exact up to one rounding and never change their order; values farther apart than 2^-52 of their size plus the shift stay different, closer ones can fall together. There is one shifted position for every position, and none overflows if positions and shift are at most 2^1022.", "quantifier": "all q values and shifts without overflow", "why_tests_cant": "Single bits decide whether two positions fall together.", "anchors": ["mlreflect/curve_fitter/minimizer.py: q_shift_variants", "mlreflect/curve_fitter/curve_fitter.py: CurveFitter.fit_curve"]}
