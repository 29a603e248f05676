{"id": "C01", "title": "IterMultipleComponents partitions the stream", "statement": "Iterating a stream with IterMultipleComponents(stream, key) yields substreams such that every input trace occurs in exactly one substream, two traces are in the same substream iff their ids agree up to the last character and the string forms of their key entries agree, the order inside a substream is the stream order, and substreams come in strictly increasing key order. A missing key entry raises KeyError.", "quantifier": "all streams of any length, all ids, all keys", "why_tests_cant": "partition/no-loss is a statement about all streams; tests use one 9-trace stream", "anchors": ["rf/util.py:IterMultipleComponents"]}
{"id": "C02", "title": "No mixing of stations or channels bands in a component group", "statement": "Two traces grouped together have the same network, station, location and channel code up to the last letter, provided the codes contain no dot and channel codes are not empty.", "quantifier": "all code strings", "why_tests_cant": "needs injectivity of string formatting over all strings", "anchors": ["rf/util.py:IterMultipleComponents"]}
{"id": "C03", "title": "number_components only filters", "statement": "With number_components=n (int or tuple) the iteration yields exactly those groups of the unrestricted iteration whose size equals n / is in n, in the same order.", "quantifier": "all streams, all n", "why_tests_cant": "all streams", "anchors": ["rf/util.py:IterMultipleComponents"]}
{"id": "C04", "title": "Stack contains one mean trace per seed id", "statement": "RFStream.stack() of a non-empty stream whose equal-id traces have equal length returns exactly one trace per distinct id, whose samples are the arithmetic mean of the samples of all traces with that id; unequal lengths in an id give ValueError and the empty stream gives IndexError.", "quantifier": "all streams, for every iteration order of the id set", "why_tests_cant": "quantifies over all streams and over the hash-dependent set order", "anchors": ["rf/rfstream.py:RFStream.stack"]}
{"id": "C05", "title": "Stack data do not depend on trace order", "statement": "Permuting the traces of the stream does not change, for any id, the stacked samples of that id.", "quantifier": "all streams and all permutations", "why_tests_cant": "all permutations", "anchors": ["rf/rfstream.py:RFStream.stack"]}
{"id": "C06", "title": "Stack metadata belong to the stacked traces", "statement": "The station coordinates, sampling rate, phase, moveout and onset offset of the stacked trace of an id are those of the traces that were stacked.", "quantifier": "all streams", "why_tests_cant": "depends on mixed streams; tests stack one station", "anchors": ["rf/rfstream.py:RFStream.stack"]}
{"id": "C07", "title": "Profile stacks by box and component", "statement": "profile(stream, boxes) returns exactly one trace per (box position, component) hit by at least one trace; its samples are the mean of the samples of exactly the traces whose piercing point lies in that box and which have that component, num is their count; traces outside every box contribute nothing; result is sorted by channel then box_pos.", "quantifier": "all streams, boxes and point-in-box relations", "why_tests_cant": "accumulation loop over an arbitrary history of traces", "anchors": ["rf/profile.py:profile", "rf/profile.py:_find_box"]}
{"id": "C08", "title": "Profile leaves its input alone and ignores trace order", "statement": "profile() does not modify samples of the input traces (although the first trace array is shared), and permuting the input only changes which trace supplies the copied header entries.", "quantifier": "all streams", "why_tests_cant": "aliasing over all histories", "anchors": ["rf/profile.py:profile"]}
{"id": "C09", "title": "Profile boxes tile the profile", "statement": "get_profile_boxes returns len(bins)-1 boxes (none for fewer than two bins); box i covers exactly [bins[i], bins[i+1]] along the profile (pos -/+ length/2), lengths sum to bins[-1]-bins[0], and only the first box carries the profile entry, whose length is bins[-1]-bins[0]. On a plane every box polygon is the rectangle with these edges and the given width, and neighbouring boxes share an edge.", "quantifier": "all bin lists, widths, azimuths", "why_tests_cant": "all bins", "anchors": ["rf/profile.py:get_profile_boxes", "rf/profile.py:_get_box"]}
{"id": "C10", "title": "_find_box returns the first enclosing box", "statement": "The box used for a point encloses it, is the first such box, and a point is dropped iff no box encloses it; points on a shared edge of two boxes are in no box.", "quantifier": "all box lists and points", "why_tests_cant": "all points", "anchors": ["rf/profile.py:_find_box"]}
{"id": "C11", "title": "SAC header round trip", "statement": "Writing an RFStream as SAC and reading it with read_rf restores every mapped header that was set (with onset and event_time converted through the SAC reference time) and introduces none that was not, provided no value prints with the text -12345 and the SAC header was not stale.", "quantifier": "all stats dictionaries", "why_tests_cant": "dictionary codec over all dictionaries", "anchors": ["rf/rfstream.py:_write_format_specific_header", "rf/rfstream.py:_read_format_specific_header", "rf/rfstream.py:_HEADERS", "rf/rfstream.py:_FORMATHEADERS"]}
{"id": "C12", "title": "Q header round trip", "statement": "Writing as Q and reading back restores every mapped header, those stored in the COMMENT json included (sh_compat=False), and the network, station, location codes; with sh_compat=True exactly the COMMENT headers are lost.", "quantifier": "all stats dictionaries", "why_tests_cant": "dictionary codec over all dictionaries", "anchors": ["rf/rfstream.py:_write_format_specific_header", "rf/rfstream.py:_read_format_specific_header", "rf/rfstream.py:RFStream.write", "rf/rfstream.py:RFTrace.__init__"]}
{"id": "C13", "title": "A deleted header does not reappear", "statement": "If a stats entry is deleted before writing, the file read back does not have it.", "quantifier": "all stats dictionaries and earlier format dictionaries", "why_tests_cant": "depends on history of the format sub-dictionary", "anchors": ["rf/rfstream.py:_write_format_specific_header"]}
{"id": "C14", "title": "write does not change the trace ids in memory", "statement": "After stream.write(...) returns or raises, network, station, location, channel codes of all traces are as before.", "quantifier": "all streams, all formats, failure of the underlying writer at any point", "why_tests_cant": "crash point and aliasing", "anchors": ["rf/rfstream.py:RFStream.write"]}
{"id": "C15", "title": "H5 write restores the global obspyh5 index and supports all stream types", "statement": "write(format=H5) selects the index template by stream type and restores the previous global index on success; every type that the package itself assigns to streams can be written.", "quantifier": "all streams, previous index states, failure of the writer", "why_tests_cant": "global state and exceptions", "anchors": ["rf/rfstream.py:RFStream.write", "rf/rfstream.py:_H5INDEX", "rf/harmonics.py:harmonics"]}
{"id": "C16", "title": "type and method properties", "statement": "stream.type / stream.method return the common header value (last letter of phase, upper case) if all traces that have the header agree, else None; after assigning, every trace has the value and the getter returns it (non-empty stream).", "quantifier": "all streams", "why_tests_cant": "all streams", "anchors": ["rf/rfstream.py:RFStream.type", "rf/rfstream.py:RFStream.method"]}
{"id": "C17", "title": "rf rejects methods other than P and S", "statement": "stream.rf(method=m) raises ValueError for every m other than P and S, before modifying any trace.", "quantifier": "all strings m", "why_tests_cant": "all strings", "anchors": ["rf/rfstream.py:RFStream.rf"]}
{"id": "C18", "title": "S receiver functions are mirrored about the onset", "statement": "For method S, rf() reverses the samples and moves the onset so that every sample keeps its distance to the onset with opposite sign; start time, end time, sample count stay; mirroring twice is the identity.", "quantifier": "all traces, onsets", "why_tests_cant": "all traces", "anchors": ["rf/rfstream.py:RFStream.rf"]}
{"id": "C19", "title": "rf sign convention", "statement": "rf() negates the samples of exactly the traces whose channel ends in Q after rotation, before deconvolution; all other samples are unchanged by this step.", "quantifier": "all streams", "why_tests_cant": "all streams", "anchors": ["rf/rfstream.py:RFStream.rf"]}
{"id": "C20", "title": "rf deconvolves every group of 2 or 3 components and only those", "statement": "rf(deconvolve=...) passes every group of 2 or 3 traces with common id prefix and onset exactly once to the deconvolution, in key order; every trace that ends up tagged as receiver function was deconvolved.", "quantifier": "all streams", "why_tests_cant": "all streams; incomplete groups", "anchors": ["rf/rfstream.py:RFStream.rf", "rf/util.py:IterMultipleComponents"]}
{"id": "C21", "title": "trim2 keeps exactly the requested window", "statement": "trim2(a, b, reftime) keeps for each trace exactly the samples whose times (rounded to nearest sample) lie between ref+a and ref+b, where ref is the own header of the trace; empty traces are dropped; sample times are unchanged.", "quantifier": "all streams, windows, reftimes", "why_tests_cant": "all windows incl. those partially/fully outside", "anchors": ["rf/rfstream.py:RFStream.trim2", "rf/rfstream.py:RFTrace._seconds2utc"]}
{"id": "C22", "title": "slice2 returns what trim2 keeps and leaves the stream alone", "statement": "slice2 with the same arguments returns the traces trim2 would keep, and does not change the original stream; keep_empty_traces keeps the empty ones too.", "quantifier": "all streams, windows", "why_tests_cant": "all streams", "anchors": ["rf/rfstream.py:RFStream.slice2"]}
{"id": "C23", "title": "Relative times", "statement": "_seconds2utc adds the offset to the reference time (own header, or given time), passes absolute times and None through, and maps lists element-wise at any nesting depth.", "quantifier": "all nested arguments", "why_tests_cant": "recursive structure; strings", "anchors": ["rf/rfstream.py:RFTrace._seconds2utc"]}
{"id": "C24", "title": "deconvolve selects source and responses by component", "statement": "deconvolve raises ValueError unless exactly one trace has a source component and 1..3 traces are responses, NotImplementedError for unknown methods, in each case before touching any trace; only response traces are changed (apart from the onset of the source); normalisation index is the position of the source among responses.", "quantifier": "all streams, component sets", "why_tests_cant": "all streams", "anchors": ["rf/deconvolve.py:deconvolve"]}
{"id": "C25", "title": "Onset is snapped to the nearest sample", "statement": "deconvolve moves the onset of source and responses to the nearest sample time of the source (later one on ties), changing it by at most delta/2; every onset not outside the trace is handled.", "quantifier": "all onsets, sampling intervals, lengths", "why_tests_cant": "boundary cases", "anchors": ["rf/deconvolve.py:__find_nearest", "rf/deconvolve.py:deconvolve"]}
{"id": "C26", "title": "Correlation helpers return the requested number of samples", "statement": "For all array lengths and shifts auto- and cross-correlation return exactly num samples, so the length assertion in deconv_time never fails; auto-correlation sample k is sum a[i+k]a[i].", "quantifier": "all arrays, num>=1, shifts", "why_tests_cant": "parity case analysis over all lengths", "anchors": ["rf/deconvolve.py:_acorrt", "rf/deconvolve.py:_xcorrt", "rf/deconvolve.py:deconv_time"]}
{"id": "C27", "title": "Time domain deconvolution aligns lag zero with the onset", "statement": "With the shift computed in deconvolve, sample k of the right-hand side is the correlation of the source window with the response displaced by k minus onset index, so that deconvolving the source from itself has its correlation maximum exactly at the onset.", "quantifier": "all window lengths (even and odd), window positions and sampling rates", "why_tests_cant": "parity case analysis", "anchors": ["rf/deconvolve.py:deconvolve", "rf/deconvolve.py:_xcorrt"]}
{"id": "C28", "title": "The Toeplitz system of deconv_time is uniquely solvable", "statement": "For a non-zero source and spiking>0 the matrix (STS/STS0 + spiking I) is symmetric positive definite for every length, so receiver functions exist uniquely.", "quantifier": "all sources, lengths, spiking>0", "why_tests_cant": "linear algebra for all sizes", "anchors": ["rf/deconvolve.py:deconv_time"]}
{"id": "C29", "title": "Normalisation", "statement": "With normalize=i the absolute maximum of result i is 1 and all results are scaled by one common factor; with None results are unscaled. (waterlevel: signed maximum.)", "quantifier": "all results with non-zero reference trace", "why_tests_cant": "all arrays", "anchors": ["rf/deconvolve.py:deconv_time", "rf/deconvolve.py:deconv_iterative", "rf/deconvolve.py:deconv_waterlevel"]}
{"id": "C30", "title": "Receiver functions do not depend on the gain", "statement": "Multiplying all components (source window and responses) with the same non-zero factor does not change the normalised time domain receiver functions, for every correct Toeplitz solver.", "quantifier": "all data, factors", "why_tests_cant": "all data", "anchors": ["rf/deconvolve.py:deconv_time"]}
{"id": "C31", "title": "Water level keeps the spectral division bounded", "statement": "For non-zero source and waterlevel>0 the denominator is positive at every frequency and the gain is bounded by 1/sqrt(waterlevel*max|S|^2), so that the energy of a result is at most the energy of the response divided by waterlevel times the peak power of the source; frequencies above the water level are divided exactly.", "quantifier": "all spectra", "why_tests_cant": "all spectra", "anchors": ["rf/deconvolve.py:deconv_waterlevel"]}
{"id": "C32", "title": "Exact recovery without regularisation", "statement": "deconv_waterlevel with waterlevel=0, gauss=None, tshift=0, normalize=None applied to the circular convolution of a source with non-vanishing spectrum and g returns g.", "quantifier": "all lengths, sources, g", "why_tests_cant": "DFT identities for all n", "anchors": ["rf/deconvolve.py:deconv_waterlevel"]}
{"id": "C33", "title": "Phase shift filter delays by tshift", "statement": "Filtering with the phase shift for tshift = m*dt circularly delays the trace by m samples for every integer m.", "quantifier": "all n, m, data", "why_tests_cant": "all n", "anchors": ["rf/deconvolve.py:_phase_shift_filter", "rf/deconvolve.py:_apply_filter"]}
{"id": "C34", "title": "Iterative deconvolution terminates and the misfit never increases", "statement": "deconv_iterative performs at most itmax iterations per component for all data, and each iteration reduces the residual energy by exactly the squared picked correlation over the source power, so recorded misfits are non-increasing.", "quantifier": "all data, itmax, minderr", "why_tests_cant": "loop invariant over arbitrary many iterations", "anchors": ["rf/deconvolve.py:deconv_iterative"]}
{"id": "C35", "title": "Iterative deconvolution puts no spikes at muted lags", "statement": "Spikes are only placed at lags outside the muted interval; with mute_shift only at lags 0..len-1.", "quantifier": "all data, iterations", "why_tests_cant": "loop invariant", "anchors": ["rf/deconvolve.py:deconv_iterative"]}
{"id": "C36", "title": "List and single array arguments", "statement": "deconv_time, deconv_waterlevel and deconv_iterative accept a list of arrays or a single array as documented, for every normalize setting.", "quantifier": "all argument shapes", "why_tests_cant": "rare argument combinations", "anchors": ["rf/deconvolve.py:deconv_time", "rf/deconvolve.py:deconv_waterlevel", "rf/deconvolve.py:deconv_iterative"]}
{"id": "C37", "title": "Zero data are handled", "statement": "A zero response gives zero iterations and a zero receiver function; division by zero only occurs if the normalisation trace is zero.", "quantifier": "all data", "why_tests_cant": "corner cases", "anchors": ["rf/deconvolve.py:deconv_iterative"]}
{"id": "C38", "title": "Multitaper windows fit into the arrays", "statement": "All taper windows used in multitaper deconvolution lie inside the arrays and there is at least one window, so no shape error or division by zero can occur.", "quantifier": "all lengths, T, olap", "why_tests_cant": "boundary arithmetic", "anchors": ["rf/deconvolve.py:deconv_multitaper"]}
{"id": "C39", "title": "Model interpolation", "statement": "A SimpleModel built with n has 1+sum(n[1:]+1) support points, keeps all given depths as support points in order, endpoints included, and keeps depths monotone and values between neighbours.", "quantifier": "all models", "why_tests_cant": "all models", "anchors": ["rf/simple_model.py:_interpolate_n", "rf/simple_model.py:SimpleModel.__init__"]}
{"id": "C40", "title": "Vertical slowness obeys Snell law", "statement": "qp^2 + p^2 = 1/vp^2 and qs^2 + p^2 = 1/vs^2 with q>=0 where the wave propagates, NaN exactly where p > 1/v.", "quantifier": "all models, slownesses", "why_tests_cant": "all reals", "anchors": ["rf/simple_model.py:calculate_vertical_slowness"]}
{"id": "C41", "title": "Delay times", "statement": "Delay time of a phase at depth index i is the sum over layers 0..i of dz times the per-letter vertical slownesses minus twice the direct phase; Ps delays are non-negative and non-decreasing with depth if vs<=vp; Sp is minus Ps; Ppps, Ppss, Pppp formulas hold; NaN at an index stays NaN below.", "quantifier": "all models, slownesses, phases", "why_tests_cant": "all models", "anchors": ["rf/simple_model.py:calculate_delay_times"]}
{"id": "C42", "title": "Moveout reference is the requested one", "statement": "The stretch from slowness to ref depends only on the arguments, for every history of earlier calls on the (globally cached) model.", "quantifier": "all call histories", "why_tests_cant": "history of a hidden cache", "anchors": ["rf/simple_model.py:stretch_delay_times", "rf/simple_model.py:load_model"]}
{"id": "C43", "title": "Stretch tables are usable", "statement": "stretch_delay_times returns two tables of equal length without NaN, increasing for Ps.", "quantifier": "all models, slownesses", "why_tests_cant": "evanescent cases", "anchors": ["rf/simple_model.py:stretch_delay_times"]}
{"id": "C44", "title": "Moveout to the own slowness is the identity", "statement": "Moveout correction of a trace whose slowness already is ref changes no sample up to the largest delay time of the model and zeroes samples after it.", "quantifier": "all traces, models", "why_tests_cant": "all data", "anchors": ["rf/simple_model.py:SimpleModel.moveout"]}
{"id": "C45", "title": "Moveout is idempotent", "statement": "Applying the same moveout twice gives the samples of applying it once.", "quantifier": "all traces, models", "why_tests_cant": "all data", "anchors": ["rf/simple_model.py:SimpleModel.moveout", "rf/rfstream.py:RFStream.moveout"]}
{"id": "C46", "title": "Moveout only touches the coda", "statement": "Moveout changes no sample before the onset (P type and Sp), never changes the number of samples, and all new samples are between min and max of old samples and 0.", "quantifier": "all traces, models", "why_tests_cant": "all data", "anchors": ["rf/simple_model.py:SimpleModel.moveout"]}
{"id": "C47", "title": "Moveout is atomic on error", "statement": "If moveout raises ValueError no trace was changed.", "quantifier": "all streams, failure position", "why_tests_cant": "crash point", "anchors": ["rf/simple_model.py:SimpleModel.moveout", "rf/rfstream.py:RFStream.moveout"]}
{"id": "C48", "title": "Piercing point distance", "statement": "ppoint_distance(depth) is the horizontal distance travelled by the ray between the surface and depth.", "quantifier": "all models, depths", "why_tests_cant": "off-by-one in layer indexing", "anchors": ["rf/simple_model.py:ppoint_distance"]}
{"id": "C49", "title": "Piercing point depth range", "statement": "ppoint_distance raises for depths outside the model instead of returning a number.", "quantifier": "all depths", "why_tests_cant": "negative index wrap-around", "anchors": ["rf/simple_model.py:ppoint_distance"]}
{"id": "C50", "title": "rfstats keeps exactly the traces in range", "statement": "rfstats(stream, dist_range) keeps exactly the traces whose epicentral distance is in the closed interval, in order, and sets distance, back_azimuth, inclination, onset, slowness, phase consistently on each.", "quantifier": "all streams, ranges", "why_tests_cant": "all streams", "anchors": ["rf/rfstream.py:rfstats"]}
{"id": "C51", "title": "rfstats defaults", "statement": "Default distance range is (30,90) for P and (50,85) for S, ValueError for any other phase; the default piercing point phase agrees between rfstats and ppoints.", "quantifier": "all phase strings", "why_tests_cant": "all strings", "anchors": ["rf/rfstream.py:rfstats", "rf/rfstream.py:RFStream.ppoints"]}
{"id": "C52", "title": "obj2stats reports missing metadata as ValueError", "statement": "An event without origin, without an origin property or without magnitude raises ValueError; otherwise event depth is in km and all entries are set.", "quantifier": "all events", "why_tests_cant": "all events", "anchors": ["rf/rfstream.py:obj2stats"]}
{"id": "C53", "title": "iter_event_data isolates failures", "statement": "A failure for one event-station pair (no coordinates, rfstats error, data retrieval error) never prevents the other pairs from being processed.", "quantifier": "all event lists, inventories, failing services", "why_tests_cant": "arbitrary failure patterns", "anchors": ["rf/util.py:iter_event_data", "rf/batch.py:init_data"]}
{"id": "C54", "title": "iter_event_data yields only complete streams", "statement": "Every yielded stream has exactly 3 traces without gaps, all carrying the rfstats entries; each pair is yielded at most once in product order.", "quantifier": "all service behaviours", "why_tests_cant": "arbitrary services", "anchors": ["rf/util.py:iter_event_data"]}
{"id": "C55", "title": "iter_event_data requests the right window", "statement": "Data are requested once per pair in range, for [onset+w0-pad, onset+w1+pad] and trimmed to [onset+w0, onset+w1]; the channel used for coordinates exists in the inventory.", "quantifier": "all inventories, events", "why_tests_cant": "all inventories", "anchors": ["rf/util.py:iter_event_data", "rf/util.py:_get_stations"]}
{"id": "C56", "title": "Harmonic decomposition recovers harmonics", "statement": "If the receiver functions (for two components: of the same events in both components) are exactly a sum of the harmonics and the back-azimuths determine the harmonics, the decomposition returns the coefficients; the fit minimises the misfit in general.", "quantifier": "all azimuth sets, coefficients", "why_tests_cant": "all azimuths", "anchors": ["rf/harmonics.py:harmonics", "rf/harmonics.py:decomp_one", "rf/harmonics.py:decomp_two"]}
{"id": "C57", "title": "Rotating the reference azimuth rotates the harmonics", "statement": "Decomposition with azim=a is the rotation of the decomposition with azim=0 (by a and 2a) and predicts the same data.", "quantifier": "all azimuths, also if they do not determine the harmonics; for method freq all streams of traces of the same length", "why_tests_cant": "all reals", "anchors": ["rf/harmonics.py:decomp_one", "rf/harmonics.py:decomp_two"]}
{"id": "C58", "title": "R and T rows belong to the same event", "statement": "In a two component decomposition the T sample paired with a back-azimuth is of the same event.", "quantifier": "all streams", "why_tests_cant": "event sets differing between components", "anchors": ["rf/harmonics.py:harmonics"]}
{"id": "C59", "title": "Harmonic stream metadata", "statement": "harmonics returns 5 traces per component with term, channel, location, type and components set.", "quantifier": "all component choices", "why_tests_cant": "loop indentation", "anchors": ["rf/harmonics.py:harmonics"]}
{"id": "C60", "title": "Batch file names", "statement": "In batch mode the file name used for reading a station-event pair is the one used for writing; different pairs (up to one second) have different names.", "quantifier": "all codes and times", "why_tests_cant": "string injectivity", "anchors": ["rf/batch.py:write", "rf/batch.py:iter_event_processed_data", "rf/batch.py:FNAMES"]}
{"id": "C61", "title": "Repeated batch commands are rejected", "statement": "rf data/calc with calc or moveout given twice is rejected.", "quantifier": "all command lists", "why_tests_cant": "dead branch", "anchors": ["rf/batch.py:run_commands"]}
{"id": "C62", "title": "Interrupted batch runs", "statement": "A batch run that fails at some stream leaves the outputs of exactly the earlier streams; rerunning it completely gives the same files as an uninterrupted run.", "quantifier": "all crash points", "why_tests_cant": "crash points", "anchors": ["rf/batch.py:run_commands", "rf/batch.py:write"]}
{"id": "C63", "title": "Configuration", "statement": "Command line options take precedence over the configuration file; comments are stripped; unknown options are rejected.", "quantifier": "all configurations", "why_tests_cant": "all dictionaries and texts", "anchors": ["rf/batch.py:run", "rf/batch.py:run_commands", "rf/batch.py:ConfigJSONDecoder"]}
{"id": "C64", "title": "Processing information is recorded", "statement": "Every public processing function returns the stream computed by the function itself with one entry, the same for all traces, appended to the processing list of each trace (as long as obspy takes entries, which is up to 100); the entry is determined by the effective values of the arguments, not by the order of keywords or by giving arguments by position, keyword or default; a call raises exactly when the undecorated function raises.", "quantifier": "all calls", "why_tests_cant": "all argument orders", "anchors": ["rf/util.py:_add_processing_info"]}
{"id": "C65", "title": "Example caches hand out independent copies", "statement": "minimal_example_rf() returns equal data at every call whatever the callers did to earlier results.", "quantifier": "all call/mutation histories", "why_tests_cant": "history", "anchors": ["rf/util.py:minimal_example_rf", "rf/util.py:minimal_example_Srf"]}
{"id": "C66", "title": "Downsampling rate", "statement": "rf(downsample=d) leaves a sampling rate between d and 2d, exactly d if d divides the rate, and leaves slower traces unchanged.", "quantifier": "all rates", "why_tests_cant": "integer division", "anchors": ["rf/rfstream.py:RFStream.rf"]}
{"id": "C67", "title": "Plot label", "statement": "The label of a plot is the most specific of the three patterns common to all traces, or empty.", "quantifier": "all streams", "why_tests_cant": "all streams", "anchors": ["rf/imaging.py:_label"]}
{"id": "C68", "title": "Harmonic plot amplitudes", "statement": "In plot_harmonics wiggles of both panels are scaled to at most 1.", "quantifier": "all streams", "why_tests_cant": "wrong reference variable", "anchors": ["rf/imaging.py:plot_harmonics"]}
{"id": "C69", "title": "Profile histogram", "statement": "Histogram bars in plot_profile span their boxes.", "quantifier": "all profiles", "why_tests_cant": "geometry", "anchors": ["rf/imaging.py:plot_profile"]}
{"id": "C70", "title": "iter_event_metadata covers the product", "statement": "iter_event_metadata yields one entry per event and station in product order with the split codes, without event_time iff no events are given.", "quantifier": "all inputs", "why_tests_cant": "all inputs", "anchors": ["rf/util.py:iter_event_metadata"]}
{"id": "C71", "title": "Foreign COMMENT fields do not prevent reading", "statement": "read_rf reads a Q file whatever text its COMMENT field contains.", "quantifier": "all comment texts", "why_tests_cant": "the space of texts is unbounded; only texts which are JSON values other than objects fail", "anchors": ["rf/rfstream.py:RFTrace._read_format_specific_header"]}
{"id": "C72", "title": "rf tags the stream", "statement": "After rf() succeeds for method P or S every trace of the stream has type rf and stream.method is the requested method, whatever the phases were before.", "quantifier": "all streams, arguments and processing functions", "why_tests_cant": "all combinations of old phases and methods", "anchors": ["rf/rfstream.py:RFStream.rf", "rf/rfstream.py:RFStream.method", "rf/rfstream.py:RFStream.type"]}
{"id": "C73", "title": "deconv_time solves the documented equations", "statement": "deconv_time with normalize=None returns RF = (STS + spiking*I)^-1 * STR as its documentation says.", "quantifier": "all sources, responses, spiking", "why_tests_cant": "an equation over all arrays; normalisation hides a constant factor in tests", "anchors": ["rf/deconvolve.py:deconv_time"]}
{"id": "C74", "title": "Time domain receiver functions are linear", "statement": "Without normalisation the receiver function of a linear combination of responses is the linear combination of their receiver functions.", "quantifier": "all sources, responses, factors", "why_tests_cant": "all arrays", "anchors": ["rf/deconvolve.py:deconv_time"]}
{"id": "C75", "title": "Exact recovery in the time domain", "statement": "If a response is the convolution of the source window with g and spiking=0, the receiver function is g up to a constant factor, g/max|g| with normalisation to itself.", "quantifier": "all sources, g, lengths, onsets", "why_tests_cant": "all arrays and lengths", "anchors": ["rf/deconvolve.py:deconv_time", "rf/deconvolve.py:_xcorrt", "rf/deconvolve.py:_acorrt"]}
{"id": "C76", "title": "Moveout moves arrivals to the reference delay", "statement": "A sample between the delays of two interfaces for the slowness of the trace appears after moveout at the same relative position between the delays of these interfaces for the reference slowness, for P phases and multiples, Sp and S multiples.", "quantifier": "all models, slownesses, traces, samples", "why_tests_cant": "the position of a sample depends on all layers and on the rounding of the onset to samples; a test compares one stack visually", "anchors": ["rf/simple_model.py:moveout", "rf/simple_model.py:stretch_delay_times"]}
{"id": "C77", "title": "Moveout accepts every onset inside the trace", "statement": "Moveout succeeds for every trace whose onset lies between start and end time.", "quantifier": "all traces and onsets, all slownesses", "why_tests_cant": "the failing case is an onset within the last sampling interval together with a slowness whose delays exceed those of the reference", "anchors": ["rf/simple_model.py:moveout"]}
{"id": "C78", "title": "Models from lists", "statement": "A SimpleModel can be built from lists or arrays and delay times can be calculated with it.", "quantifier": "all depth and velocity lists", "why_tests_cant": "needs all combinations of argument types", "anchors": ["rf/simple_model.py:SimpleModel.__init__", "rf/simple_model.py:calculate_vertical_slowness"]}
{"id": "C79", "title": "Moveout headers", "statement": "After RFStream.moveout every trace has slowness ref, slowness_before_moveout with its former slowness and moveout with the phase; the default phase is Ps for method P and Sp for method S; times are unchanged.", "quantifier": "all streams", "why_tests_cant": "must hold for every stream and phase", "anchors": ["rf/rfstream.py:RFStream.moveout"]}
{"id": "C80", "title": "Taking the real part loses nothing", "statement": "The arrays deconv_waterlevel computes before deconvolve stores their real parts are real, so that no part of the result is thrown away, for every time shift and number of FFT points.", "quantifier": "all data, shifts, FFT lengths", "why_tests_cant": "must hold for every shift and FFT length, including fractional shifts", "anchors": ["rf/deconvolve.py:deconv_waterlevel", "rf/deconvolve.py:_phase_shift_filter", "rf/deconvolve.py:deconvolve"]}
{"id": "C81", "title": "Reported normalisation", "statement": "With return_info=True the reported normalisation factor is the one the results were multiplied with and the other information describes the same deconvolution, for every normalize setting.", "quantifier": "all normalize settings", "why_tests_cant": "rarely used option combinations", "anchors": ["rf/deconvolve.py:deconv_waterlevel"]}
{"id": "C82", "title": "Documented header fields", "statement": "A stream written to SAC or Q contains every documented stats entry in the file field which the table in the package documentation names (times in SAC files as seconds after the reference time, entries without own Q field in the JSON COMMENT, none of them with sh_compat), and reading a SAC file of another program gives exactly the entries whose fields are defined.", "quantifier": "every stream of distinct traces, every set of stats entries, every format dictionary, every SAC file with a reference time", "why_tests_cant": "A test writes one trace with one set of headers; a consistent exchange of two fields survives any round trip test.", "anchors": ["rf/rfstream.py:write", "rf/rfstream.py:RFTrace", "rf/__init__.py"]}
{"id": "C83", "title": "rfstats uses the event and station passed", "statement": "If an event or a station is passed to rfstats, the entries of the returned stats describe that event and that station, whether or not the other one is passed and whatever the given stats contained before.", "quantifier": "all events, stations, previous stats", "why_tests_cant": "combinations of optional arguments and previous contents", "anchors": ["rf/rfstream.py:rfstats", "rf/rfstream.py:obj2stats"]}
{"id": "C84", "title": "Harmonics in the time and frequency domain agree", "statement": "For a stream of traces of the same length, harmonics with method freq returns the same traces or raises the same exception as with method time.", "quantifier": "all streams of traces of the same length, components and azimuths, also with less traces than harmonics", "why_tests_cant": "all inputs", "anchors": ["rf/harmonics.py:harmonics"]}
{"id": "C85", "title": "Harmonics depend on the selected receiver functions only", "statement": "The harmonics do not depend on the order of the traces in the stream and not on traces of other components.", "quantifier": "all permutations of all streams", "why_tests_cant": "all orders", "anchors": ["rf/harmonics.py:harmonics"]}
{"id": "C86", "title": "Batch mode accepts event and inventory objects", "statement": "run_commands accepts Catalog and Inventory objects as well as file names (optionally with format) for events and inventory.", "quantifier": "all ways to give events and inventory", "why_tests_cant": "The branches depend on the type of the arguments; a test of one type says nothing about the others", "anchors": ["rf/batch.py:run_commands"]}
{"id": "C87", "title": "A failing request does not end a batch data run", "statement": "In rf data a waveform request which fails for one station-event pair is reported and skipped; all other pairs are processed.", "quantifier": "all events, stations and failing requests", "why_tests_cant": "Which requests fail depends on the data service", "anchors": ["rf/batch.py:init_data", "rf/util.py:iter_event_data"]}
{"id": "C88", "title": "Receiver function plot", "statement": "plot_rf draws every trace once, trace i at level i+1 over its times relative to the onset, scaled by the largest amplitude of the trace (trace_scale) or of all traces; the axis limits contain all times, the onset and all levels; the additional information of a trace is drawn at its level and the title counts the traces.", "quantifier": "all streams, scale factors and info headers", "why_tests_cant": "all streams", "anchors": ["rf/imaging.py:plot_rf"]}
{"id": "C89", "title": "Profile plot stays inside its limits", "statement": "plot_profile draws each trace around the position of its box with one common scale and all wiggles stay inside the x limits.", "quantifier": "all profiles and scales", "why_tests_cant": "inequality over all amplitudes and scales", "anchors": ["rf/imaging.py:plot_profile"]}
{"id": "C90", "title": "Station map", "statement": "plot_stations draws every station of a stream exactly once, and every entry of an inventory, at its longitude and latitude and labels it with its own name if labels are wanted.", "quantifier": "all streams", "why_tests_cant": "set semantics, argument order", "anchors": ["rf/imaging.py:plot_stations"]}
{"id": "C91", "title": "Rows of the harmonic plot", "statement": "In plot_harmonics the row labelled with a function of back azimuth shows the coefficient of this function (channel 0 constant, 1 cos, 2 sin, 3 cos of the double angle, 4 sin of the double angle) over its times relative to the onset.", "quantifier": "all streams", "why_tests_cant": "index arithmetic over all orders of traces", "anchors": ["rf/imaging.py:plot_harmonics"]}
{"id": "C92", "title": "Multitaper results of components", "statement": "Multitaper deconvolution without normalization treats the components independently: result number c is what deconvolving response c with its own noise alone gives, and it has the length of the response. For fixed source and noise the result is linear in the response.", "quantifier": "all responses, sources, noises, tapers and options", "why_tests_cant": "algebra of the whole estimator for all arrays", "anchors": ["rf/deconvolve.py:deconv_multitaper"]}
{"id": "C93", "title": "Offsets and trends in multitaper deconvolution", "statement": "Adding a constant and a linear trend (different for each array) to responses, source and noise does not change the result of multitaper deconvolution.", "quantifier": "all arrays, offsets and slopes", "why_tests_cant": "holds for every trend and every array", "anchors": ["rf/deconvolve.py:deconv_multitaper"]}
{"id": "C94", "title": "Normalization of multitaper results", "statement": "With normalize=i all results are multiplied with the same positive number, which makes the largest absolute value of result i equal to 1. Therefore the result does not depend on a common gain of the responses.", "quantifier": "all inputs for which the deconvolution succeeds", "why_tests_cant": "all arrays and gains", "anchors": ["rf/deconvolve.py:deconv_multitaper"]}
{"id": "C95", "title": "Timing of multitaper results", "statement": "If the response is the delayed source, the multitaper receiver function has its maximum 1 at the delay relative to the onset.", "quantifier": "all sources, delays, tapers, gauss filters and noises", "why_tests_cant": "holds for every source and every delay", "anchors": ["rf/deconvolve.py:deconv_multitaper", "rf/deconvolve.py:deconvolve"]}
{"id": "C96", "title": "Source windows of deconvolve", "statement": "deconvolve passes the unchanged data of all responses to the deconvolution function, together with the source cut to a window around the onset, padded with zeros and tapered, and with the time between the start of this window and the onset; the results are stored in the responses, for iterative deconvolution together with the number of iterations. The window is the one given, or a default for the method and the type P or S: -10 s to 30 s with 5 s taper for time domain, multitaper and user functions, all data without taper for iterative, all data (P) or from -10 s on (S) with 5 s taper for water level deconvolution.", "quantifier": "all streams, windows, methods and sampling rates", "why_tests_cant": "window arithmetic for all start times and onsets", "anchors": ["rf/deconvolve.py:deconvolve"]}
{"id": "C97", "title": "Noise for multitaper deconvolution", "statement": "If no noise is given, multitaper deconvolution takes as noise for each response the data of this response from its start to 5 s before the onset, for every stream.", "quantifier": "all streams and onsets", "why_tests_cant": "window arithmetic for all onsets", "anchors": ["rf/deconvolve.py:deconvolve"]}
{"id": "C98", "title": "Peak at the onset", "statement": "Deconvolving a source window from a trace which contains nothing but this source gives, after normalisation by this trace, a result which is 1 at the onset and nowhere larger in absolute value, for the time domain method (spiking at its default), the water level method and the iterative method.", "quantifier": "all sources, window positions, onsets, water levels, filters and sampling rates", "why_tests_cant": "the position and the height of the peak must hold for every source wavelet", "anchors": ["rf/deconvolve.py:deconv_time", "rf/deconvolve.py:deconv_waterlevel", "rf/deconvolve.py:deconv_iterative"]}
{"id": "C99", "title": "Peak of the source component of deconvolve()", "statement": "If the source component of a stream is zero outside of the untapered part of its deconvolution window, deconvolve() with the water level or the iterative method leaves a source component which is 1 at the sample nearest to the onset and nowhere larger in absolute value (up to the rounding of the floating point kernel), for every choice of window and onset for which the window starts on a sample of the trace.", "quantifier": "all streams, onsets, windows, tapers, water levels, filters and source wavelets", "why_tests_cant": "the time windows, shifts and normalisation of the driver and the kernel have to agree for every onset and window", "anchors": ["rf/deconvolve.py:deconvolve", "rf/deconvolve.py:deconv_waterlevel", "rf/deconvolve.py:deconv_iterative"]}
{"id": "C100", "title": "Converted arrivals", "statement": "If the response traces are sums of copies of the source window with different amplitudes and arrival times, water level deconvolution shows every arrival on every component with the same symmetric wavelet of height 1, with its amplitude and sign, at its arrival time. A component with one arrival has exactly the amplitude of this arrival at its time and is nowhere larger.", "quantifier": "all sources, numbers of arrivals, amplitudes, arrival times, water levels, filters and sampling rates", "why_tests_cant": "arrival times, polarities and relative amplitudes of all components must be right for every wavelet and superposition", "anchors": ["rf/deconvolve.py:deconv_waterlevel"]}
{"id": "C101", "title": "Amplitudes before normalisation", "statement": "Multiplying the response components by (possibly different) factors multiplies the unnormalised receiver functions by exactly these factors, for the time domain, water level and iterative methods (non-zero factors for the iterative method); the number of iterations and the reported misfits of the iterative method do not change.", "quantifier": "all responses, sources, factors and parameters", "why_tests_cant": "relative amplitudes must be kept for every input; the iterative method is not linear, so examples do not carry over", "anchors": ["rf/deconvolve.py:deconv_time", "rf/deconvolve.py:deconv_waterlevel", "rf/deconvolve.py:deconv_iterative"]}
{"id": "C102", "title": "Single conversion in iterative deconvolution", "statement": "If a component consists of a single copy of the source window, with any amplitude and arrival time inside the trace, iterative deconvolution normalised by the source component has exactly this amplitude (with sign) at the arrival time, is nowhere larger, and needs at most two iterations.", "quantifier": "all sources, amplitudes, arrival times, filters, sampling rates and iteration limits", "why_tests_cant": "the greedy search must find the right lag for every source wavelet", "anchors": ["rf/deconvolve.py:deconv_iterative"]}
{"id": "C103", "title": "Model files: three or four columns", "statement": "load_model of a text file with at least two lines of four numbers (depth, vp, vs, number of additional layers, decimals dropped) returns a model which has exactly the layers obtained by linear interpolation between the lines, in order, without gaps, down to the last depth; if depths increase and velocities are positive with vs <= vp the model is valid. With three columns the layers are the lines of the file. Every other file (one line, other or varying number of columns, missing) is refused with an error, and a refused file leaves the process unchanged.", "quantifier": "all file contents, names and states of the process in which the name was not loaded before", "why_tests_cant": "numbers of lines, interpolation counts and values are unbounded", "anchors": ["rf/simple_model.py:load_model", "rf/simple_model.py:SimpleModel.__init__", "rf/simple_model.py:_interpolate_n"]}
{"id": "C104", "title": "The model in use is that of the file", "statement": "Whatever happened before in the process (loads, moveouts, piercing points with this or other models, writing of files), load_model, RFStream.moveout and RFStream.ppoints give the results a new process would give for the present content of the model file; the name iasp91 always means the model of the package.", "quantifier": "all histories of loads, moveouts, piercing points and writes of files", "why_tests_cant": "histories are unbounded and the state is hidden in a module level cache", "anchors": ["rf/simple_model.py:load_model", "rf/simple_model.py:_MODEL_CACHE", "rf/rfstream.py:RFStream.moveout", "rf/rfstream.py:RFStream.ppoints"]}
{"id": "C105", "title": "Piercing points of a stream", "statement": "RFStream.ppoints returns one point per trace in the order of the traces; the point lies in the direction of the back azimuth from the station of its trace at the distance of ppoint_distance for the slowness of this trace, of the S leg for P receiver functions and the P leg for S receiver functions if no phase is given; the same point and the depth are stored in the headers of the trace and nothing else is changed. It succeeds whenever the headers are present and the depth is in the model.", "quantifier": "all streams, models, depths, phases and geodesic functions", "why_tests_cant": "holds for every trace of streams of every size and every model", "anchors": ["rf/rfstream.py:RFStream.ppoints", "rf/simple_model.py:SimpleModel.ppoint", "rf/simple_model.py:SimpleModel.ppoint_distance", "rf/util.py:direct_geodetic"]}
{"id": "C106", "title": "Piercing points belong to the recorded rays", "statement": "RFStream.ppoints gives the piercing points of the recorded rays whether or not a moveout correction was performed before on the stream.", "quantifier": "all streams, models, references, phases and depths", "why_tests_cant": "interaction of two methods through a header, for every slowness and reference", "anchors": ["rf/rfstream.py:RFStream.moveout", "rf/rfstream.py:RFStream.ppoints", "rf/util.py:minimal_example_rf"]}
{"id": "C107", "title": "Piercing points: all or nothing", "statement": "If RFStream.ppoints raises an error no trace of the stream was changed.", "quantifier": "all streams, models, depths and phases", "why_tests_cant": "every position of the failing trace in streams of every size", "anchors": ["rf/rfstream.py:RFStream.ppoints", "rf/simple_model.py:SimpleModel.ppoint"]}
{"id": "C108", "title": "Each stored stream is processed once", "statement": "A command run on a data archive visits, for the given events and inventory, the stored stream of each pair of station and event (or of each station) exactly once and no other streams, in formats Q, SAC and H5.", "quantifier": "all events, inventories, archives", "why_tests_cant": "must hold for every combination of events, stations and channels", "anchors": ["rf/batch.py:iter_event_processed_data", "rf/batch.py:_iter_event_processed_data", "rf/batch.py:run_commands", "rf/util.py:iter_event_metadata"]}
{"id": "C109", "title": "Results of a command can be read back", "statement": "After rf convert, calc or moveout (or several of them) wrote to a path, reading that path in the new format gives for each requested pair of event and station exactly the processed traces of this pair, in all combinations of formats; the input archive is unchanged.", "quantifier": "all archives, events, inventories, commands, formats", "why_tests_cant": "composition of reading, processing and writing over all archives", "anchors": ["rf/batch.py:run_commands", "rf/batch.py:write", "rf/batch.py:iter_event_processed_data"]}
{"id": "C110", "title": "Figures of rf plot", "statement": "rf plot saves for each station and each channel exactly one figure, whose name has the codes of station and channel; it shows exactly the traces of this channel, sorted by back azimuth. There are no other figures.", "quantifier": "all streams of stations", "why_tests_cant": "depends on the order of a set and on names for all stations and channels", "anchors": ["rf/batch.py:run_commands"]}
{"id": "C111", "title": "Figures of rf plot-profile", "statement": "rf plot-profile saves for each component of the profile one figure, which shows exactly the traces of this component in the order of the profile. There are no other figures.", "quantifier": "all profiles", "why_tests_cant": "wildcards in the channel codes of profiles", "anchors": ["rf/batch.py:run_commands", "rf/profile.py:profile"]}
{"id": "C112", "title": "A profile can be read back", "statement": "rf profile writes a profile which rf plot-profile reads back with exactly its traces, in each format.", "quantifier": "all profiles, formats and previous contents of the output path", "why_tests_cant": "histories of commands with the same path", "anchors": ["rf/batch.py:run_commands", "rf/batch.py:write", "rf/batch.py:_iter_profile"]}
{"id": "C113", "title": "Results of rf stack", "statement": "rf stack writes for each station and each of its channels exactly one trace, the mean of all traces of this channel, to the file with the codes of the station (and channel); nothing else is written and other files stay as they are.", "quantifier": "all archives, stations, channels and formats", "why_tests_cant": "depends on the order of a set and on names for all stations", "anchors": ["rf/batch.py:run_commands", "rf/batch.py:write", "rf/rfstream.py:RFStream.stack"]}
{"id": "C114", "title": "Depth axis of profile plots", "statement": "In a profile plot with a velocity model, the tick labelled with a depth stands at the delay time of a wave converted at this depth, for the phase and slowness of the profile.", "quantifier": "all layered models, phases, slownesses and profiles", "why_tests_cant": "holds for every depth of every model", "anchors": ["rf/imaging.py:plot_profile", "rf/simple_model.py:SimpleModel.calculate_delay_times"]}
{"id": "C115", "title": "Labels and order of the depth axis", "statement": "The depth axis of a profile plot has the labels 0, 1, ..., 19 times 50 km, or times 200 km if the first trace ends more than 50 s after its onset, with four ticks between two labels; for phases arriving after the direct P wave ticks of larger depths are never above ticks of smaller depths; it is made from the headers moveout and slowness of the first trace, and plotting with an axis raises AttributeError if moveout is not set.", "quantifier": "all profiles and models", "why_tests_cant": "needs all models and all depths", "anchors": ["rf/imaging.py:plot_profile"]}
{"id": "C116", "title": "Meaning of a command line", "statement": "rf [options] command arguments runs the command with exactly its arguments (paths in the order given, the commands calc and moveout before them), with each option under its name in the configuration (the last one if it is repeated, --option value or --option=value), and with the entries of the configuration file for everything else; with -c None the file is not used; without the file nothing is run.", "quantifier": "all sequences of options, commands, arguments, configuration files", "why_tests_cant": "all command lines", "anchors": ["rf/batch.py:run_cli", "rf/batch.py:run"]}
{"id": "C117", "title": "Only complete command lines are run", "statement": "A command line is run only if it has a command and the documented arguments of this command; the words calc and moveout are commands, never paths.", "quantifier": "all command lines", "why_tests_cant": "all sequences of words, also those with forgotten arguments", "anchors": ["rf/batch.py:run_cli"]}
{"id": "C118", "title": "rf create", "statement": "rf create writes the example configuration to the given name and, with --tutorial, the three example files to the same directory, and nothing else.", "quantifier": "all names of configuration files", "why_tests_cant": "names with and without directories", "anchors": ["rf/batch.py:run", "rf/batch.py:run_cli"]}
{"id": "C119", "title": "rf print", "statement": "rf print prints the events or the inventory of the configuration, or the traces of all given files in their order, for which neither configuration nor events and inventory are needed; print accepts the words of its help, events and inventory.", "quantifier": "all objects and files", "why_tests_cant": "all lists of files, with and without configuration", "anchors": ["rf/batch.py:run_commands", "rf/batch.py:run", "rf/batch.py:run_cli"]}
{"id": "C120", "title": "rf stack on an archive gives the mean over all events", "statement": "After receiver functions of different station-event pairs were stored by the batch mode, rf stack with a new output path writes for each station of the inventory with data and each channel exactly one trace, the sample-wise mean of all stored traces of this station and channel over all events; it writes nothing else and does not change the archive.", "quantifier": "all archives, formats, inventories and numbers of events", "why_tests_cant": "Depends on writing, file patterns, reading, grouping and averaging together, for any number of stations and events.", "anchors": ["rf/batch.py:write", "rf/batch.py:iter_event_processed_data", "rf/batch.py:run_commands", "rf/rfstream.py:RFStream.stack"]}
{"id": "C121", "title": "Stations do not affect each other in rf stack", "statement": "A station whose receiver functions cannot be stacked does not change which results of other stations rf stack writes.", "quantifier": "all sequences of stations and positions of the failing one", "why_tests_cant": "The position of a failing station among others is arbitrary.", "anchors": ["rf/batch.py:run_commands", "rf/rfstream.py:RFStream.stack"]}
{"id": "C122", "title": "rf plot on an archive shows each station and channel", "statement": "After receiver functions of different station-event pairs were stored by the batch mode, rf plot saves for each station of the inventory with data and each of its channels a figure file named by the codes which shows exactly the stored traces of this station and channel, of all events, sorted by back azimuth, and no other figures.", "quantifier": "all archives, formats, inventories (also with several bands per station) and numbers of events", "why_tests_cant": "Depends on writing, file patterns, reading, grouping and sorting together.", "anchors": ["rf/batch.py:write", "rf/batch.py:iter_event_processed_data", "rf/batch.py:run_commands"]}
{"id": "C123", "title": "Maps show the given points, stations and boxes", "statement": "plot_ppoints and plot_profile_map show exactly the given piercing points and the stations of the given stream or inventory at their longitudes and latitudes, labels with the station names on demand and each box of the profile once, in addition to what was on the given axes.", "quantifier": "all lists of piercing points, inventories, streams, boxes and existing axes", "why_tests_cant": "Coordinates are swapped several times between (lat, lon) and (lon, lat); must hold for any combination of arguments.", "anchors": ["rf/imaging.py:plot_ppoints", "rf/imaging.py:plot_profile_map", "rf/imaging.py:plot_stations"]}
{"id": "C124", "title": "Maps can be drawn without piercing points", "statement": "plot_ppoints and plot_profile_map draw a map whenever their arguments are well formed, also if the list of piercing points is empty.", "quantifier": "all combinations of points, inventories, boxes and axes", "why_tests_cant": "Ranges over all combinations of optional arguments.", "anchors": ["rf/imaging.py:plot_ppoints", "rf/imaging.py:plot_profile_map"]}
{"id": "C125", "title": "The default map is centred on what it shows", "statement": "Without a reference system maps use a projection centred in the middle of the piercing points, or in the middle box of the profile.", "quantifier": "all positions on the globe", "why_tests_cant": "Positions of points are arbitrary.", "anchors": ["rf/imaging.py:_get_geoaxes", "rf/imaging.py:plot_ppoints", "rf/imaging.py:plot_profile_map"]}
{"id": "C126", "title": "The program writes nothing outside of its output path", "statement": "Whatever the command, configuration, data and errors are, every file which a call of rf (or of the batch functions with arguments) creates, replaces or appends to and every figure it saves is in the directory given by the output path, or is the file with the name of the output path and the extension .h5 or .QHD. All other files keep their content. For command lines the output path is the path at its end (before the new format for convert); command lines without such a path write nothing.", "quantifier": "all command lines, configurations, sets of files, results and failures of libraries and processing", "why_tests_cant": "names of files are built from codes of traces and options, and any of many steps may fail", "anchors": ["rf/batch.py:run_commands", "rf/batch.py:write", "rf/batch.py:run_cli"]}
{"id": "C127", "title": "Commands need the inputs which they use, and no others", "statement": "If inventory or events which a command needs cannot be read (or are not given) then nothing is written. Commands which do not use events or inventory do not depend on them.", "quantifier": "all commands, arguments, files and results of reading", "why_tests_cant": "absence of effects for all inputs, and independence of an argument, compare infinitely many runs", "anchors": ["rf/batch.py:run_commands"]}
{"id": "C128", "title": "rf stack as a whole", "statement": "The command line rf [options] stack IN OUT, with inventory and format from the command line or the configuration, writes for every station of the inventory and every channel stored in IN the mean of the stored receiver functions to OUT, writes nothing else and leaves all other files as they are; it ends without an exception. The stations do not depend on the bands of the inventory.", "quantifier": "all option lists, configurations, archives, inventories and paths", "why_tests_cant": "combines parsing, configuration, iteration, reading, stacking and writing for all archives", "anchors": ["rf/batch.py:run_cli", "rf/batch.py:run", "rf/batch.py:run_commands", "rf/batch.py:iter_event_processed_data", "rf/rfstream.py:RFStream.stack"]}
{"id": "C129", "title": "rf plot as a whole", "statement": "The command line rf [options] plot IN OUT saves exactly one figure for every channel stored in IN of every station of the inventory. It shows, with the options for plot of command line or configuration, exactly the receiver functions of this channel sorted by back azimuth.", "quantifier": "all option lists, configurations, archives and inventories", "why_tests_cant": "combines parsing, configuration, iteration, reading and sorting for all archives", "anchors": ["rf/batch.py:run_cli", "rf/batch.py:run", "rf/batch.py:run_commands", "rf/batch.py:iter_event_processed_data"]}
{"id": "C130", "title": "rf calc, moveout and convert as a whole", "statement": "After the command lines rf [options] calc [moveout] IN OUT, rf moveout IN OUT and rf convert IN OUT FORMAT, if they end without exception, OUT contains for each stored event and station asked for by the catalog and the inventory of the configuration exactly the stream processed with the options of the configuration (and the phase given for moveout), nothing for other events and stations, and IN is as before.", "quantifier": "all option lists, configurations, archives, catalogs, inventories and processing functions", "why_tests_cant": "combines parsing, configuration, iteration, reading, processing and writing for all archives", "anchors": ["rf/batch.py:run_cli", "rf/batch.py:run", "rf/batch.py:run_commands", "rf/batch.py:iter_event_processed_data", "rf/batch.py:write"]}
{"id": "C131", "title": "rf data as a whole", "statement": "After the command line rf [options] data [calc] [moveout] OUT, if it ends without exception, OUT is an archive of exactly the streams found for the events and stations, each processed with the given commands and the options of the configuration. Files outside of OUT are as before. If the data source cannot be set up, nothing is written. If the processing of all streams and the writing succeed, the call succeeds (or ends with the exception of the data source).", "quantifier": "all option lists, configurations, catalogs, inventories, data sources and processing functions", "why_tests_cant": "combines parsing, configuration, iteration, processing and writing for all inputs", "anchors": ["rf/batch.py:run_cli", "rf/batch.py:run", "rf/batch.py:run_commands", "rf/batch.py:init_data", "rf/batch.py:write"]}
{"id": "C132", "title": "Output archives can be used like input archives", "statement": "After rf calc, moveout and convert, if they end without exception, OUT is an archive in the sense in which IN is one: the results of the streams asked for, written one after the other, so that every further command can use it. Files outside of OUT are as before. If reading, processing and writing succeed for each stream, the call succeeds.", "quantifier": "all option lists, configurations, archives, catalogs, inventories and processing functions", "why_tests_cant": "an invariant of archives which must be kept by every command", "anchors": ["rf/batch.py:run_cli", "rf/batch.py:run_commands", "rf/batch.py:iter_event_processed_data", "rf/batch.py:write"]}
{"id": "C133", "title": "From data to stacks", "statement": "The calls rf data RAW, rf calc [moveout] RAW RF (or rf moveout RAW RF) and rf stack RF OUT, with one configuration and new paths, succeed if all data can be processed. OUT then contains for each channel of each station with data the mean of the results of all its events, each of them processed by the commands of the first and then of the second call, and nothing else. Other files are as before.", "quantifier": "all configurations, paths, formats, catalogs, inventories, data sources and processing functions", "why_tests_cant": "a statement about histories of calls; any loss, mix-up or repetition in one of the calls breaks it", "anchors": ["rf/batch.py:run_cli", "rf/batch.py:run", "rf/batch.py:run_commands", "rf/batch.py:iter_event_processed_data", "rf/batch.py:write", "rf/rfstream.py:RFStream.stack"]}
{"id": "C134", "title": "A copy of a stream is independent of the original", "statement": "After copy = stream.copy(), whatever is called for the copy and for streams made of it (filter, trim2, slice2, rf, moveout, further copies, RFStream()), every trace of the rest of the program is seen as before: stats and samples. More generally, methods applied to traces which have no array in common with other traces never change what is seen of those.", "quantifier": "all memory states (any sharing of arrays among other traces), all streams, and all sequences of calls for the copy and streams derived from it, of any length, failing or not", "why_tests_cant": "A test compares the original before and after a few calls. Whether any method, in any order, writes into an array which is still used elsewhere depends on every place where data are assigned or written in place.", "anchors": ["rf/rfstream.py:RFStream.rf", "rf/rfstream.py:RFStream.trim2", "rf/rfstream.py:RFStream.slice2", "rf/rfstream.py:RFStream.moveout", "rf/simple_model.py:SimpleModel.moveout"]}
{"id": "C135", "title": "Work on a part of a stream does not change the stream", "statement": "If a stream is made from parts of another one by slice2 or RFStream(), methods applied to it do not change what is seen of the original. Violated by moveout, which writes into the arrays (views) it gets: the samples of the window are replaced in the original, too. True for all other methods, and also with moveout after filter, or after rf with a filter or with a rotation of all traces.", "quantifier": "all memory states, windows, streams and sequences of calls of any length", "why_tests_cant": "Sharing is invisible unless the original is looked at (or used) afterwards, and depends on the calls before.", "anchors": ["rf/rfstream.py:RFStream.slice2", "rf/rfstream.py:RFStream.__init__", "rf/rfstream.py:RFTrace.__init__", "rf/rfstream.py:RFStream.moveout", "rf/simple_model.py:SimpleModel.moveout"]}
{"id": "C136", "title": "Results do not depend on shared arrays", "statement": "What rf and slice2 give for a stream depends on the samples of its traces only, also if the traces are views on common arrays. For moveout this holds if no two traces of the stream have a sample in common; otherwise common samples are corrected more than once.", "quantifier": "all memory states (any overlap of views), streams and arguments", "why_tests_cant": "Tests use freshly read streams, in which nothing is shared; the number of patterns of overlap is unbounded.", "anchors": ["rf/rfstream.py:RFStream.rf", "rf/rfstream.py:RFStream.slice2", "rf/rfstream.py:RFStream.moveout", "rf/simple_model.py:SimpleModel.moveout"]}
{"id": "C137", "title": "rf data with a local file uses its original samples", "statement": "With a local file as data source, the stream processed for an event and a station consists of the samples of the file in the requested window with the stats of the event, whatever was done to the streams of the events before. This holds for rf data, rf data calc and for rf data calc moveout if rf renews the arrays (filter, or rotation of complete streams). With rf data moveout it fails if windows overlap.", "quantifier": "all files, lists of events and stations, memory states, sequences of commands and arguments of rf", "why_tests_cant": "Whether a stream is damaged depends on the overlap of its window with the windows of all events before, over unbounded histories; tests use one event per window.", "anchors": ["rf/batch.py:init_data", "rf/batch.py:run_commands", "rf/util.py:iter_event_data", "rf/simple_model.py:SimpleModel.moveout"]}
{"id": "C138", "title": "Requested window is delivered exactly, padding has no influence", "statement": "With a local file that has three records of the same times for an event and a station, rf data writes exactly those samples, at their times, which are less than half a sampling interval outside of the request window, with the entries of the event added. The padding does not matter as long as it is at least half a sampling interval. A window outside of the records gives no stream, and nothing raises.", "quantifier": "all records, windows (between samples, on samples, partly or fully outside), paddings, sampling intervals, lists of events and stations", "why_tests_cant": "The window is cut twice, with rounding relative to the start of the record, then to the start and the end of the cut record; off-by-one errors at halves of samples appear for special alignments only.", "anchors": ["rf/batch.py:init_data", "rf/util.py:iter_event_data"]}
{"id": "C139", "title": "Noise given to multitaper deconvolution", "statement": "If noise is given, each response is deconvolved with the noise of its own component, no data before the onset are needed, and the noise of other components is not used. Methods which do not use noise reject it.", "quantifier": "all streams, noise streams (any order and number of traces), components, windows, deconvolution kernels", "why_tests_cant": "The pairing is by position in two lists filtered independently; tests use noise cut out of the same stream, for which the orders agree.", "anchors": ["rf/deconvolve.py:deconvolve"]}
{"id": "C140", "title": "Sample numbers survive floating point arithmetic", "statement": "The sample number which moveout computes for the onset is the last sample not after the onset, also in floating point arithmetic; so samples before the onset keep their values. The same holds for the shift of time domain deconvolution and for the number of samples iterative deconvolution leaves out.", "quantifier": "all start and onset times in ns, sampling intervals of at least 10 microseconds, sampling rates given by a double next to 1/delta, traces of up to 2^47 samples", "why_tests_cant": "whether a product of doubles falls just below a whole number depends on the times; tests use whole seconds, where it does not happen", "anchors": ["rf/simple_model.py:SimpleModel.moveout", "rf/deconvolve.py:deconvolve", "rf/deconvolve.py:deconv_iterative"]}
{"id": "C141", "title": "Every trace can be printed", "statement": "str() of a trace with an onset shows its kind and id, the times of its first and last sample relative to the onset, sampling rate and number of samples, and exactly those of magnitude, distance, back azimuth, box position, slowness and moveout which are set. It does not fail.", "quantifier": "all traces: ids, types, phases, times, any subset of headers with any values; any texts which the library makes of numbers and times", "why_tests_cant": "The text is put together from the headers which are present and formatted afterwards; the combinations of headers and values which are not numbers cannot be enumerated.", "anchors": ["rf/rfstream.py:RFTrace.__str__"]}
{"id": "C142", "title": "rf profile and rf plot-profile as a whole", "statement": "For an archive of receiver functions the call rf profile IN OUT writes one trace per box and component: the mean of exactly those traces of the requested events and stations whose piercing point is in the box. rf plot-profile OUT FIGS then saves one figure per component with exactly the traces of this component and no other figure.", "quantifier": "all command line options and configurations, archives in all three formats, catalogues, inventories, boxes and piercing points", "why_tests_cant": "Chains option parsing, archive iteration, the stacking in boxes, writing, reading back and plotting for arbitrary archives", "anchors": ["rf/batch.py:run_commands", "rf/batch.py:iter_event_processed_data", "rf/profile.py:profile"]}
{"id": "C143", "title": "rf data stores each complete stream under its event and station", "statement": "After rf data the output path contains one stream for each pair of an event of the catalogue and a station of the inventory for which the data source delivers three complete components in the window around the onset, processed by the further commands, with the entries of rfstats and under the event and station it was requested for; for all other pairs there is no complete stream, and commands which read the path with the same catalogue and inventory find all of them.", "quantifier": "all catalogues, inventories, options of the command line and the configuration file, data sources, file formats", "why_tests_cant": "depends on all answers of a data service and on the way from the request to the file name", "anchors": ["rf/batch.py:run_commands", "rf/batch.py:init_data", "rf/batch.py:write", "rf/util.py:iter_event_data"]}
{"id": "C144", "title": "Plugins are called with the documented arguments", "statement": "With data \"plugin\" the function named by \"module : func\" is called for each request with network, station, location, channel, starttime, endtime and event, and the example of the configuration file can be used.", "quantifier": "all plugin names, functions and requests", "why_tests_cant": "the plugin is code of the user", "anchors": ["rf/batch.py:init_data", "rf/batch.py:load_func", "rf/util.py:iter_event_data", "rf/example/conf.json"]}
{"id": "C145", "title": "Data come from the source of the configuration", "statement": "rf data gets waveforms from the data source of the configuration only: clients are created with client_options and asked for exactly the codes and times of each request, a local file is read once and cut to each request; an error of the source at a request is printed and gives no data for this request (see C53 for what follows), an error while creating the source is raised.", "quantifier": "all client names, client options, files and requests", "why_tests_cant": "data sources are services or code of others and can fail at any request", "anchors": ["rf/batch.py:init_data", "rf/batch.py:run_commands"]}
{"id": "C146", "title": "Accuracy of times in SAC files", "statement": "A time stored in a SAC file is read back with an error of at most one microsecond plus the float32 resolution of its distance to the reference time, and writing and reading a file again and again does not change it further.", "quantifier": "all times within 10^6 s of the reference time, both precisions of the product, any number of cycles", "why_tests_cant": "rounding depends on the value; errors could add up over histories", "anchors": ["rf/rfstream.py:__SAC2UTC", "rf/rfstream.py:__UTC2SAC", "rf/rfstream.py:_HEADER_CONVERSIONS"]}
{"id": "C147", "title": "Event times in files", "statement": "Reading a file does not change the second of event_time: results calculated from files get the name of the event again, and the next batch command finds them.", "quantifier": "all formats, archives, catalogues, inventories and event times", "why_tests_cant": "the rounding of times depends on the time and on the start of the record", "anchors": ["rf/rfstream.py:RFTrace._read_format_specific_header", "rf/batch.py:write", "rf/batch.py:iter_event_processed_data"]}
{"id": "C148", "title": "Components of a record stay together in files", "statement": "The components of a record which are iterated over together before writing are iterated over together after reading.", "quantifier": "all formats, records and start times", "why_tests_cant": "the texts of rounded times are compared", "anchors": ["rf/rfstream.py:RFTrace._read_format_specific_header", "rf/util.py:IterMultipleComponents", "rf/rfstream.py:RFStream.rf"]}
{"id": "C149", "title": "Rotation to ray coordinates", "statement": "RFStream.rf(rotate=\"ZNE->LQT\", deconvolve=None) turns every complete three-component group of the stream into L, Q, T: L is the ground motion along the ray (positive up and away from the event), Q the motion at right angles to the ray in the vertical plane of the ray (positive away from the event for a vertical ray), T the horizontal motion at right angles to this plane. rf(rotate=\"NE->RT\") leaves Z as it is and returns R, the horizontal motion away from the event, and T. Both rotations preserve the energy of each sample, and they agree in polarity: Q = R cos(i) - Z sin(i) with the same T. All headers but the component letter, type and phase are kept.", "quantifier": "all streams, samples, back azimuths, inclinations and orders of the components", "why_tests_cant": "The signs depend on obspy conventions and on a negation in rf(); a synthetic test covers some angles and one order of the traces.", "anchors": ["rf/rfstream.py:RFStream.rf"]}
{"id": "C150", "title": "From ground motion to receiver functions", "statement": "If the ground motion at a station is a P wave along the ray, waves converted from P to SV at given delays and amplitudes, and SH waves, then rf() with rotation to LQT and spectral division (waterlevel) returns an L component which is one symmetric wavelet of height 1 at the onset, a Q component which is the sum of this wavelet over the conversions at their delays, amplitudes and signs, and a T component likewise for the SH waves, up to the error of the floating point computation. For method S, Q is the wavelet at the onset and the conversions from S to P before the S onset appear on L with the same delay after the onset.", "quantifier": "all source time functions inside of the source window, all numbers, delays and amplitudes of the arrivals, all angles, water levels and Gauss filters, all record lengths and sampling rates, all streams with further groups", "why_tests_cant": "A test uses one synthetic seismogram; the statement ranges over all signals and joins rotation, sign convention, windows, deconvolution and mirroring.", "anchors": ["rf/rfstream.py:RFStream.rf", "rf/rfstream.py:RFStream.deconvolve", "rf/deconvolve.py:deconvolve", "rf/deconvolve.py:deconv_waterlevel"]}
