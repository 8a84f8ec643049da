# A Rocq model of mlreflect

The subject is `schreiber-lab/mlreflect` (sources in `/repo`, read as text, never run).  The model lives in
`rocq/theories` (logical name `Verif`).

## How the model is organised

For each part of the code there is

* `X_Model.v` – total Gallina functions mirroring the Python branch by branch; every definition cites file and lines;
* `X_Spec.v` – where the property needs vocabulary of its own, small definitions that do not mention the model;
* `X_Proofs.v` – the lemmas;
* `X_Props.v` – only the property theorems (named `Cnn_...`), the examples showing that their hypotheses are met by a
  concrete case, and `Print Assumptions`.

Exceptions are values of `res A` (`Ok a` or `Raise e`).  Python objects that are compared by identity are addresses in a
heap.  Random draws, the neural network, the optimiser, `float()` of a string, HDF5 and the error function are
*arguments* of the model (records of functions whose documented contract is a hypothesis of the theorem), never axioms.

A theorem whose name ends in `_partial` proves the property on a stated part of its domain; a theorem whose name ends in
`_refuted` proves that the property is false of the code, with a witness.  The property text of a refuted property is
kept as the user would expect it.

## Numbers

* Real arithmetic (`R` of the standard library, complex numbers of Coquelicot) is used for numerical laws.  Rounding,
  overflow and NaN of binary64 are not modelled there, except where a definition says so (division by zero, NaN in
  argmin).
* Order properties that must survive rounding are proved a second time over IEEE binary64 (Flocq) in `Float_*.v`.

## Properties

<!-- TABLE -->
| id | property | model file / how proved | status |
|---|---|---|---|
| C01 | Label order of a sample | Sample_Model.label_names vs. an explicit map/append specification; induction on the layer list | proved |
| C02 | Distinct layers give distinct labels | string suffix-cancellation lemmas + NoDup over the appended maps | proved |
| C03 | Dictionary round trip of a sample | to_dict/from_dict modelled on a JSON-like value; induction on layers (list reversal twice) | proved |
| C04 | from_dict replaces the structure | characterise the result exactly (old layers ++ new layers); refutation witness for the docstring claim | partial |
| C05 | Saved model loads back | file system as path map, JSON encoding with the TypeError case; corollary of the dictionary round trip | proved |
| C06 | move_layer moves one layer and keeps the others in order | Python list insert/remove over object references; spec by delete-at-index on both sides | proved |
| C07 | move_layer never loses or duplicates a layer | proved for non-negative source index; refuted for negative ones with an explicit witness | partial |
| C08 | swap_layers exchanges exactly two layers | pointwise characterisation of the resulting list | proved |
| C09 | add_layer inserts at the requested position | exact characterisation with firstn/skipn at the clamped position | proved |
| C10 | LayerOnSubstrate holds at most one variable layer | invariant over call sequences; refuted in general, proved for histories whose variable layer stays at the bottom | partial |
| C11 | Accepted layers have valid ranges | constructors as res-valued functions; case analysis with a validity specification | proved |
| C12 | Constant layers are constant | proved for scalar inputs; refuted for pairs (silently None) and Parameter objects | partial |
| C13 | A copied sample is independent of the original | heap of layer objects; freshness of the copied addresses, frame property over rename sequences | proved |
| C14 | Range sampling stays inside the range (uniform, logarithmic) | random generator as an arbitrary record of functions meeting numpy's contract; real arithmetic | proved |
| C15 | Bolstered sampling: number of values | floor modelled on reals; length of a permutation of the concatenation | proved |
| C16 | Bolstered sampling stays inside the range | proved when every normal draw is within one span of its limit; refuted otherwise with a witness draw | partial |
| C17 | Roughness is coupled to thickness | row loop as recursion over the thickness column; bounds by cases | proved |
| C18 | Shape of the generated label table | ordered-dictionary model of the label dict; column selection by name | proved |
| C19 | Labels are separated into the right categories | substring search on strings; proved under the naming guard, refuted without it | partial |
| C20 | Simulated reflectivity is a physical intensity | complex transfer matrices over Coq reals | proved |
| C21 | No contrast, no reflection | off-diagonal elements vanish; induction on the layers | proved |
| C22 | Splitting a homogeneous layer changes nothing | the interface matrix between equal SLDs is the identity, translation matrices are additive; list-split induction | proved |
| C23 | Bare substrate follows the Névot-Croce Fresnel formula | algebra over complex numbers with the field tactic | proved |
| C24 | Transfer-matrix result equals the Parratt recursion | projective-ratio invariant by induction on the interfaces | proved |
| C25 | One simulated curve per label row | array shapes modelled explicitly; proved for at least one film layer, refuted for a bare substrate (0 curves) | partial |
| C26 | SLD profile follows the smooth-step construction | error function as an oracle bounded by 1 and monotone; telescoping sums | proved |
| C27 | Interpolation is exact at data points and bounded between them | np.interp modelled by segment search on reals; log/power identities | proved |
| C28 | Scaling and shifting commute with interpolation | induction on the grid | proved |
| C29 | ModelMixer simulates the given labels | positional-argument model; refuted: every non-empty call passes the engine name as noise spread and raises | partial |
| C30 | Standardisation statistics are frozen by the first call | state machine with an abstract history specification, induction over call lists | proved |
| C31 | Standardisation can be undone | real arithmetic, induction on rows and columns | proved |
| C32 | First standardisation yields zero mean and unit variance | sums over real lists | proved |
| C33 | Label preprocessing round trip | data frames as ordered name/column lists over complex numbers | proved |
| C34 | Min-to-zero normalisation maps the range onto [0,1] | reals, and a second theorem over IEEE binary64 via Flocq | proved |
| C35 | absolute_max scales the absolute maximum to one | proved for ranges with |min| <= |max|; refuted otherwise; division by zero for max = 0 | partial |
| C36 | Constant labels are split off and returned | list filtering over the data-frame model | proved |
| C37 | The chosen normalisation is applied | strings with an identity flag; proved for interned literals, refuted for equal but non-interned strings (silently no normalisation) | partial |
| C38 | Epoch batches are disjoint and in range | index list invariant (permutation of 0..n-1) over shuffle histories; slicing lemmas | proved |
| C39 | Inputs and labels of a batch belong together | map over one index list on both sides | proved |
| C40 | Shot noise keeps curves positive and shaped | 1-D/2-D arrays as a sum type; clip on reals | partial |
| C41 | Random scaling keeps the curve shape | proved except for single-row matrices; refuted there (the row dimension is dropped) | partial |
| C42 | Noise generator in batch mode | refuted: TypeError for every input, proved for all inputs | partial |
| C43 | Training/validation split | firstn/skipn with truncation of a real number | proved |
| C44 | Background generation | matrix-shaped oracle | proved |
| C45 | SPEC file index is complete | line-list parser with explicit recursion depth; rendering/parsing round trip by induction on blocks | proved |
| C46 | SPEC scan data round trip | string split/strip lemmas; float() as an oracle | partial |
| C47 | Column names are read verbatim | proved when the first name does not start with L, # or a blank; refuted otherwise (lstrip eats leading characters) | partial |
| C48 | Consecutive scans without blank line | refuted: without a blank separator the earlier scan disappears (general theorem about two adjacent blocks) | partial |
| C49 | Indexing works for any number of scans | recursion depth is an argument of the model; proved: n scans need exactly n+1 nested calls, so a larger file raises RecursionError | partial |
| C50 | Trimming crops the requested points | Python slicing with negative bounds; proved for b>0, refuted for b=0 (everything is cropped) | partial |
| C51 | Attenuator kinks are removed | in-place suffix scaling loop over a list of reals; loop invariant | proved |
| C52 | Corrected intensity is normalised | real lists, list maximum; binary64 version for the maximum and the values | proved |
| C53 | Footprint correction can be removed again | element-wise real arithmetic | proved |
| C54 | Box footprint factor | sin/asin monotonicity on reals | proved |
| C55 | Invalid beam shapes are reported | refuted for all such strings: the error is swallowed and the uncorrected curve is returned | partial |
| C56 | Angle and q conversions are inverse | trigonometric identities | proved |
| C57 | Range getters return aligned data | common slice of three equally long lists; also: values need not lie inside the bounds (refuted) | proved |
| C58 | load_scans skips only non-reflectivity scans | fold over scan numbers; specification by filtering | proved |
| C59 | FIO columns stay rectangular | line state machine, invariant over the line list; refuted for duplicate column names | proved |
| C60 | FIO file round trip | rendering/parsing round trip | proved |
| C61 | Duplicate points are removed consistently | index collection loop and numpy.delete as list functions | proved |
| C62 | Region-of-interest sums are additive | matrix slices and sums | proved |
| C63 | Attenuation is applied once | proved for the default counter, refuted for a custom region (attenuation squared) | partial |
| C64 | Images stay aligned with data rows | proved when all tif files exist; refuted when one is missing, and all-zero images without an index column | partial |
| C65 | FIO scan numbers | proved for files named stem_NNNNN.fio; refuted for another experiment whose name extends the stem (IndexError) | partial |
| C66 | One parameter row and one curve per input curve | network, simulator and optimiser as oracles with row-wise contracts; case analysis of the control flow; refuted for polishing with the default bounds | partial |
| C67 | Predicted thickness and roughness are never negative | absolute value on the final table in every path | proved |
| C68 | The best variant is selected | argmin with numpy's not-a-number rule; proved for defined errors | partial |
| C69 | Optimised predictions are what fit_curve returns | refuted for optimize_q without optimize_scaling (the result is overwritten by the plain prediction); proved for both together | partial |
| C70 | Optional outputs are None exactly when not requested | case analysis | proved |
| C71 | Polishing starts inside its bounds | zip model; proved for as many fractions as labels; refuted for more labels than fractions and for a zero start value | partial |
| C72 | Polishing bounds are relative to the predicted value | proved for ranges with minimum 0, refuted otherwise (bounds are relative in normalised space) | partial |
| C73 | SpecFitter reload | fitter/file-system state machine; refuted: for every history the data of the last set_file call is used | partial |
| C74 | FioFitter reload | state machine, abstract specification "last load" | partial |
| C75 | Missing scans are skipped with a message | proved for FioFitter; refuted for SpecFitter (raises) | partial |
| C76 | fit without q optimisation | proved for SpecFitter; refuted for FioFitter (TypeError for every scan) | partial |
| C77 | set_trained_model takes exactly one source | case analysis | proved |
| C78 | Result series keep order and content | list maps; refuted for a range without any fit (raises) | partial |
| C79 | Saved curves of a series do not overwrite each other | injectivity of decimal rendering and string concatenation | proved |
| C80 | Error of a series is available | attribute-lookup model; refuted for every non-empty series (AttributeError) | partial |
| C81 | Mean squared error | sums of squares over reals | proved |
| C82 | HDF5 training data round trip | file as maps of datasets and attributes; exact info only for a fresh file (stale attributes refuted) | partial |
| C83 | File extension helper | string suffix lemmas | proved |
| C84 | Footprint rescaling keeps the maximum | element-wise real arithmetic and list maximum | proved |
| C85 | Smooth stacks conserve energy | energy flux as a quadratic form, conserved by smooth interfaces and monotone under translation (derivative argument) | proved |
| C86 | A layer without thickness and roughness is invisible | product of three matrices equals one | proved |
| C87 | Reflectivity is even in q | the wave vectors depend on q^2 only | proved |
| C88 | One SLD profile per label row | array shapes modelled explicitly; proved for at least one film layer, refuted for a bare substrate (IndexError) | partial |
| C89 | Training batches are two-dimensional | array shapes modelled explicitly; refuted for batch size 1 (a one-dimensional input), proved from 2 on | partial |
| C90 | Verbosity reaches the callbacks | argument binding of the staticmethod modelled; refuted (the argument lands in self, the callback always gets 1) | partial |
| C91 | Any positive number of training samples | refuted for one sample: the data are stored and then TypeError is raised; the non-positive part is proved | partial |
| C92 | Batch size condition of training | exact condition proved for every monotone rounding; the documented condition proved for val_split <= 1/2 and refuted beyond | partial |
| C93 | Range getters return the points between the limits | refuted: asking for everything up to the last q drops the last point; proved up to one point at each end | partial |
| C94 | Gaussian footprint factor | real analysis with erf as an oracle | proved |
| C95 | Statistics of a scan series | induction over the series | proved |
| C96 | Loading a SPEC scan end to end | composition of the parser lemmas with the table lookup | proved |
| C97 | Every readable scan with the required columns can be loaded | refuted: a scan without a "#D" line raises KeyError and aborts load_scans | partial |
| C98 | Only theta-2theta scans are taken for reflectivity scans | proved: commands with both motors are accepted, and the exact condition; refuted: a motor "bottom", and a file without a command | partial |
| C99 | Motors of a scan command | text search in a text made of words | proved |
| C100 | Momentum transfer of scan objects | algebra; refuted for the wavelength: 12380/E here, 12398/E there | partial |
| C101 | Combined detector pictures | pixel formula by induction over the scans; refuted: arguments are attenuated in place, so a second call attenuates twice | partial |
| C102 | Loading a FIO scan end to end | composition of the lemmas; refuted: with a division counter every call fails | partial |
| C103 | Only lengths are made positive | text search; refuted for layer names that contain "thickness" or "roughness" | partial |
| C104 | Shift and factor correct the input | proved unless both optimisations are on; then refuted: dq and factor have no influence | partial |
| C105 | Variants of a curve | translation law of the interpolation | proved |
| C106 | reload by position or by keyword | argument passing as a data type; refuted for a positional False | partial |
| C107 | Times of a series | oracle for strptime | proved |
| C108 | Error of a result | all cases: positive curves, other curves, no points, different lengths | proved |
| C109 | Save paths and log directories | posix path functions | partial |
| C110 | Errors of predictions | tables by label | partial |
| C111 | Listing of scans | sorted ranges of integers; refuted for SPEC scans without a date | partial |
| C112 | Contents of a result | inversion of the monadic pipeline; success via footprint correction lemmas | proved |
| C113 | Interpolated curve of a result | translation and scaling laws of the interpolation; refuted for factors other than 1 | partial |
| C114 | Time stamps | decimal digits of fixed width; lexicographic order | proved |
| C115 | Attributes describe the saved data | file as dictionary of entries; refuted: limits of labels that no longer exist stay | partial |
| C116 | Noise and background entries | file as dictionary of entries | proved |
| C117 | Predicted labels | oracle for the network | proved |
| C118 | SLD profiles of a series | row-wise behaviour of the profile simulation and pandas.concat | proved |
| C119 | Scan numbers as text | decimal digits | proved |
| C120 | Uniform noise | RNG contract | proved |
| C121 | The trained network meets the fitter's requirements | forward pass in exact arithmetic; discharges the network oracle of C66-C81 | proved |
| C122 | Reachable predictions | forward pass; with absolute_max negative labels are out of reach | partial |
| C123 | Sensitivity of predictions | Lipschitz bound layer by layer | proved |
| C124 | Generate, train, fit | composition of the models; keras fit as oracle that succeeds and keeps the layers | proved |
| C125 | Gaussian peaks | exact reals; NaN as absence | proved |
| C126 | Lorentzian peaks | exact reals; the symmetry is refuted | partial |
| C127 | Sums of peaks | parameter lists as concatenated groups | proved |
| C128 | What simpleFit and multiVoigtFit fit and show | scipy as oracle, the plot as list of curves | partial |
| C129 | gaussLorentzianFit fits one Gaussian and one Lorentzian | scipy as oracle | partial |
| C130 | Residuals vanish exactly for a perfect fit | exact logarithms | partial |
| C131 | multiFit returns a fit | scipy as oracle that calls the function at least once | partial |
| C132 | Exported text files | disk as dictionary of lines, formatting as oracle | partial |
| C133 | Written pictures | composition with C101 | partial |
| C134 | Intensities shown by plotRois | panels as records | partial |
| C135 | Panels of plotRois | matplotlib refuses panel numbers outside the grid | partial |
| C136 | Signal counter and UB matrix of FIO files | the text between brackets; rows with separators other than blanks are refuted | partial |
| C137 | Reading only the header | two runs of the same loop | partial |
| C138 | Pictures loaded for a scan | selections of a list by number; matching holds for increasing indices only | partial |
| C139 | Order of loading pictures and removing repeated points | two orders of the same two methods; false with index columns (points removed twice) and for line detectors (never removed) | partial |
| C140 | FIO tables with repeated column names | invariant of the reader loop | proved |
| C141 | Fitted parameters are the rescaled network outputs | cells of the result as a formula in the outputs | proved |
| C142 | A network that is right makes the fit exact | composition of prediction, restoring and simulation is the identity | proved |
| C143 | Returned curves belong to the returned parameters | relation between two outputs of one call | proved |
| C144 | Polishing never makes a fit worse | contract of curve_fit (descends); needs lower bounds >= 0 for lengths | partial |
| C145 | The plot of a fit shows the data, the prediction and the right numbers | text and lines as a formula in the result | partial |
| C146 | The plot of a series shows every result of every parameter | points as a formula in the results; documented values refuted | partial |
| C147 | The colours of the profiles match the colour bar | iff: scan numbers ascending with constant distance | partial |
| C148 | A plot of a scan series shows the requested scans | lines related to scans; scan numbers as range refuted | partial |
| C149 | The printed sample is unambiguous and its numbers are the indices | text as a function, injectivity; number as index refuted | partial |
| C150 | Constant parameters compare like their values | comparison = comparison of floats; complex values refuted | partial |
| C151 | The ranges of a layer are the limits of its parameters | list as a formula in the parameters | partial |
| C152 | The reflectivity falls at least like q^-4 | Parratt recursion with the bound |x| <= 2 * sum of the interface amplitudes; total variation of the profile | proved |
| C153 | Porod law of a bare substrate | amplitude = 4*pi*s/(k+k')^2 exactly; epsilon definition of the limit | proved |
| C154 | Total reflection below the critical edge | 1 - R as a quotient of wave vectors | proved |
| C155 | Roughness lowers the reflectivity of a bare substrate above its critical edge | sign of the real part of the product of the wave vectors | proved |
| C156 | An opaque film hides what lies beneath it | energy flux bounds the amplitude from below; perturbation of one Parratt step | proved |
| C157 | Restored labels in double precision | Flocq binary64; at most the maximum refuted by the range 0.3 to 0.9, proved below 1 and for widths that are double numbers | partial |
| C158 | Interpolation in double precision | Flocq binary64; second half refuted by a computed segment | partial |
| C159 | The simulated reflectivity is continuous | continuity of the complex square root on the closed upper half plane (the artificial absorption keeps waves off the cut); limits along arbitrary filters | proved |
| C160 | A film of vacuum changes nothing | zero contrast makes the interface matrix the identity; damping factor of the vacuum wave | proved |
| C161 | Seeds make a session reproducible; the last seed counts for all objects | world with a global random state; worlds are equal after seeding; refuted by two generators | partial |
| C162 | What a trained model shares with its trainer | samples and networks as heap objects; invariant that trainers have distinct networks | partial |
| C163 | Saved models are independent, trained models follow the sample object | heap objects; C05 for the file; refuted by a renamed film | partial |
| C164 | A sample is the sequence substrate, films, ambient | SampleObj_Model: sample objects with their class; index arithmetic | proved |
| C165 | Only layers can be put into a sample | case analysis; LayerOnSubstrate.add_layer has no else branch | partial |
| C166 | Each place of a sample holds a layer of its class | invariant over all histories; refutation: any layer object is accepted anywhere, and a film without thickness shortens the list of thicknesses | partial |
| C167 | A copy of a sample behaves like the original | layer copies are identities on valid layers; class tracked | partial |
| C168 | A LayerOnSubstrate is restored by from_dict | from_dict with the class's own add_layer; from_dict makes every film a variable Layer | partial |
| C169 | Interpolated scans and arrays of scans | Helpers_Model on top of the scan and interpolation models | proved |
| C170 | The Gaussian kernel is normalised | closed form of the weights; sum over a filtered list | partial |
| C171 | The timer decorator prints the run time | the local variables of the wrapper never contain 'time' | partial |
| C172 | Row-wise application to curves | np.array of a list of rows modelled with its shape rules | partial |
| C173 | Preprocessing values are loaded from a text file | np.loadtxt's shape rules modelled | partial |
| C174 | Labels as arrays and back | columns of the rows and rows of the columns | proved |
| C175 | Setting up a file fitter | Invariants over histories of the fitter models of C73/C74. | proved |
| C176 | Simulated curves have the units of the labels | Spec states the recursion in angstrom units (`label_amplitude`); scaling lemmas for the recursion of C30. | proved |
| C177 | Generated training data are physical | Joins the sampling theorems (C20 ff.) with the bounds of the reflectivity recursion. | proved |
| C178 | Containers of trained models in every state | Container with optional fields and a disk of files/directories in all states; keras, h5py and json trusted as described in Container_Model.v. | partial |
| C179 | Checkpoints of a training | keras's fit loop and callbacks (tensorflow 2.1) as a transition system over an arbitrary epoch function. | partial |
| C180 | Learning rates | Invariant of ReduceLROnPlateau over all loss sequences. | partial |
| C181 | Models of a ModelMixer | Induction over the calls of add_model; np.random.choice as oracle that is asked only for the normalised weights. | proved |
| C182 | Loss of labels | The loss is rewritten through the model function of the fit; sums of squares and injectivity of the logarithm. | proved |
| C183 | What a simulated curve tells about the labels | Interfaces between equal materials drop out of the transfer matrix (C153), by induction over the relation between stacks; the bare substrate has a closed formula that is strictly monotonic in the roughness and whose tail fixes the modulus of the scattering length density. | proved |
| C184 | Inputs that fit_curve refuses | Each stage of the fit is evaluated up to the first error; acceptance from C66. | proved |
| C185 | Batch generators as they are constructed | The constructors as functions of optional keyword arguments; the batches from C39. | proved |
| C186 | Mean squared errors and the choice of a variant in double precision | Flocq binary64; a sum is a tree of additions, bounds by induction over the tree; the logarithms of the curves are given. | partial: different curves may have the error 0 (underflow) |
| C187 | Standardisation in double precision | Flocq binary64; differences and sums have a relative error without underflow, products and quotients with. | proved |
| C188 | Generators without statistics and with missing labels | The batch of C39 with the fresh preprocessor of C30/C31; the labels are used only at the end of every access. | proved |
| C189 | Uniform draws in double precision | Flocq binary64; a part of the rounded width is at most the exact width (the predecessor of the rounded width, and midpoints). Assumed about numpy: low + (high - low) * u with u at most 1 - 2^-53. | proved |
| C190 | Batch sizes that are not positive | The constructor, length and batches of C38 with Python's slices for negative bounds; batches without functions. | proved |
| C191 | Distance of two curves in the P08 tools | Exact numbers; induction over both curves. | proved |
| C192 | Curves rescaled to a maximum in double precision | Flocq binary64 with given maxima; the quotient is at most 1 and 1 for the maximum. | proved |
| C193 | Energies and wavelengths in double precision | Flocq binary64; four relative errors. | proved |
| C194 | File names of scans | The file name of C65 for all integers; read back with the decimal numbers of the standard library. | proved |
| C195 | Heights of a profile in double precision | Flocq binary64. Assumed about np.arange: ceil((stop - start) / step) numbers, start + i * ((start + step) - start) from the third on, without fused operations. | proved |
| C196 | Shifted q values in double precision | Flocq binary64; sums of two numbers have a relative error without underflow. | proved |
<!-- /TABLE -->

## Wrong programs

`seeded/LOG.jsonl` has one line for each edit of the model that was tried in a scratch copy. How to read it:

- `failed_lemmas` names the lemmas or theorems at which the build stopped.
- `failed` names theorems of the property list. If `failed_lemmas` is empty, the build stopped at these theorems.
- If both are filled, the build stopped at the lemmas, and `failed` names theorems resting on them, which could then not be rebuilt. It was not shown one by one that these theorems are false of the edited model. Only entries of C189 and those that say so were checked in this way, by disproving the edited statements.
- If only `failed_lemmas` is filled, no theorem of the list is said to have failed.
- If both are empty, everything still built. `tightened` then names the theorems that were made stronger, if any.
- A build can also stop because a proof script no longer fits although the statement still holds. The text of the edit says so where this was noticed.

## Trusted base

Coq's kernel (8.16.1); for each theorem what `Print Assumptions` lists under it in the `*_Props.v` files (only axioms of
the standard library: `ClassicalDedekindReals.sig_forall_dec`, `ClassicalDedekindReals.sig_not_dec`,
`FunctionalExtensionality.functional_extensionality_dep` and, where Coquelicot/Flocq lemmas need it,
`Classical_Prop.classic`); and the reading of the Python code recorded in the comments of the model files.  The readings
that go beyond the text of the repository are the following.  Versions are those pinned by the project: numpy 1.18,
pandas 1.1.5, scipy 1.5.4, h5py 2.10, tensorflow 2.1, matplotlib 3.3.4.

Hypotheses of the theorems (contracts of external code, all satisfied by a concrete object in the examples):

* Random numbers (`rng_ok`, `nrng_ok`): uniform draws lie between their limits, normal draws have the requested
  shape and equal the mean for scale 0, Poisson draws are refused above numpy's limit, `shuffle` permutes.
  A negative zero as scale is not distinguished from zero.
* refl1d: an arbitrary function of wave vector, thicknesses, roughnesses and SLDs that returns one value per q value.
* erf: odd, monotone, between -1 and 1.
* keras: `fit` keeps the layers of the network (`keeps_layers`); `predict` returns one row of outputs per curve
  (`network_ok`; proved for the networks of the trainer by C121).
* scipy's `curve_fit` (`curve_fit_ok`, `curve_fit_descends`): ValueError unless the start values are within the bounds;
  the result is within the bounds, both are evaluated, and the residuals do not grow.  Start values nearer than 1e-10 to
  a bound may be moved, so the theorems exclude them.  `leastsq` is an arbitrary function.
* numpy's `argmin` with values that are not finite: any index (`pick`).
* `float()`, `strptime`, `%6.4f`, `%f`, `%.5e`, rounding to six digits: arbitrary functions of the text or number
  (`int()` is modelled).  `str` of a machine number is one line without comma and differs for different numbers
  (`show_ok`).  `os.makedirs` creates the directory and keeps the others.  Rounding of arithmetic, where it
  matters for a statement, is an arbitrary monotone function (`rounding`).

Idealisations of the model:

* Arithmetic is exact; every value that is not finite (infinity, NaN) is one value `None`, and everything computed from
  it is `None`.  Exceptions: `np.interp`, where intensities of infinity are treated like NaN, and the networks, where
  the activation keeps `None`.  Complex division by zero is not finite.
* Columns of a DataFrame are unique and have the same length; `concat` is used for tables with the same columns; labels
  that are missing make the simulated curve `None`.
* Strings compared with `is` carry a flag for their identity (literals are interned); the recursion limit is a number
  of nested calls; arrays changed in place live in a heap.
* Complex labels cannot be polished (TypeError).
* Files: a disk is a list of paths with their lines, detector files are given as decoded pictures of real numbers; `glob`
  patterns have no wildcards in the stem; `listdir` has the order of the model's list; pictures of different size give a
  ValueError; `numpy.delete` ignores numbers out of range (numpy 1.18); the scans that are combined are distinct
  objects; a HDF5 file is a dictionary of entries.  Directories are lists of components without links and `..`.
* Beam width, sample length and wavelength are Python floats, so that division by zero raises ZeroDivisionError.
* keras writes one HDF5 file for the extensions .h5, .hdf5 and .keras and a directory for other names, and replaces an
  existing file; h5py refuses directories and `data=None`.
* Times lie in the years 1000 to 9999.
* Tables with an index have numbers as index; the order of the columns of aligned tables is not modelled.
* Plots are lists of what they show; `plt.subplot` refuses numbers out of range and `plot` refuses data of different
  length (ValueError).  Bare Exceptions are written as ValueError.

## Not modelled

Most plotting, progress bars, console output (except where a property is about it), TensorFlow training itself, the refl1d
C++ engine, HDF5 byte layout, numpy dtype promotion, detector image decoding.
