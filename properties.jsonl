{"id": "C01", "title": "ListDict behaves like an insertion-ordered map", "statement": "After any sequence of keyed assignments, appends, removals, extends, updates and clears, a ListDict holds each key once, looking a key up returns the value most recently stored under it (KeyError if there is none), and iteration order is the order in which the surviving keys were first inserted; an operation that raises leaves the container unchanged.", "quantifier": "every finite sequence of public operations, every key and every stored object", "why_tests_cant": "The interesting states are produced by long interleavings of append/assign/remove with colliding keys; a test fixes a few sequences.", "anchors": ["mt_metadata/common/list_dict.py::ListDict.__setitem__", "mt_metadata/common/list_dict.py::ListDict.append", "mt_metadata/common/list_dict.py::ListDict.remove", "mt_metadata/common/list_dict.py::ListDict.extend", "mt_metadata/common/list_dict.py::ListDict.update", "mt_metadata/common/list_dict.py::ListDict.clear", "mt_metadata/common/list_dict.py::ListDict.__getitem__"]}
{"id": "C02", "title": "Integer, key and slice access to a ListDict agree", "statement": "For every ListDict d: d[i] for 0<=i<len(d) is list(d)[i] and equals d[d.keys()[i]]; an integer outside that range (negative included) raises KeyError; d[a:b] with integer or key endpoints holds exactly the items at the positions a..b-1 in the original order (key endpoint = position of that key, stop exclusive).", "quantifier": "every ListDict content, every integer index and every pair of integer/key endpoints", "why_tests_cant": "Index arithmetic must hold for every length and every endpoint combination.", "anchors": ["mt_metadata/common/list_dict.py::ListDict.__getitem__", "mt_metadata/common/list_dict.py::ListDict._get_index_slice_from_slice", "mt_metadata/common/list_dict.py::ListDict._get_key_from_index"]}
{"id": "C03", "title": "ListDict.sort permutes items into key order and is idempotent", "statement": "sort() keeps exactly the same key/value pairs, leaves keys strictly increasing in string order, and sorting twice equals sorting once.", "quantifier": "every ListDict content", "why_tests_cant": "Needs every permutation of every key set.", "anchors": ["mt_metadata/common/list_dict.py::ListDict.sort"]}
{"id": "C04", "title": "ListDict.pop(key) removes exactly the requested key", "statement": "pop(k) for a present k returns {k: value stored under k} and removes only k.", "quantifier": "every ListDict and every present key", "why_tests_cant": "Must hold for every position of the key in the container.", "anchors": ["mt_metadata/common/list_dict.py::ListDict.pop"]}
{"id": "C05", "title": "ListDict.update_keys re-keys without losing objects", "statement": "After ids are edited in place, update_keys() makes every object reachable under its current id, keeps order, returns precisely the old->new renames, and loses no object when current ids are distinct.", "quantifier": "every ListDict content and every assignment of new ids", "why_tests_cant": "Collision patterns of ids are unbounded.", "anchors": ["mt_metadata/common/list_dict.py::ListDict.update_keys"]}
{"id": "C06", "title": "Flattening and restructuring a nested metadata dictionary are inverse", "statement": "structure_dict(flatten_dict(d)) = d for every nested dictionary without empty sub-dictionaries whose keys are non-empty and dot-free; flatten_dict never produces two equal dotted names for such d.", "quantifier": "every finite nested dictionary, any depth and width", "why_tests_cant": "Depth/width are unbounded; the failure cases are structural (empty dicts, separator).", "anchors": ["mt_metadata/base/helpers.py::flatten_dict", "mt_metadata/base/helpers.py::structure_dict", "mt_metadata/base/helpers.py::recursive_split_dict"]}
{"id": "C07", "title": "Dotted-name attribute access: get returns what set stored and disturbs nothing else", "statement": "Setting a dotted attribute path and reading the same path returns the value; reading any path that is neither a prefix nor an extension of it is unchanged; the dict-building variant used by the constructor creates missing intermediate levels.", "quantifier": "every nested object, every path of any length, every value", "why_tests_cant": "Frame conditions over all other paths.", "anchors": ["mt_metadata/base/helpers.py::recursive_split_setattr", "mt_metadata/base/helpers.py::recursive_split_getattr", "mt_metadata/base/metadata.py::DotNotationBaseModel._set_nested_attribute", "mt_metadata/base/metadata.py::DotNotationBaseModel.update_attribute"]}
{"id": "C08", "title": "Attribute-name normalisation is idempotent and yields lower-case dotted snake case", "statement": "validate_attribute(validate_attribute(s)) = validate_attribute(s) whenever the first call succeeds, and the result has no upper-case letter and no '/'.", "quantifier": "every string accepted by the validator", "why_tests_cant": "Strings of every length and capital pattern.", "anchors": ["mt_metadata/utils/validators.py::validate_attribute"]}
{"id": "C09", "title": "EMTF-XML tag names convert back to the attribute they came from", "statement": "Converting a snake_case attribute name made of lower-case words to an XML CapWords tag and back with the attribute validator returns the original name.", "quantifier": "every list of non-empty lower-case words", "why_tests_cant": "All word lists; digits/underscore edge cases break it.", "anchors": ["mt_metadata/transfer_functions/io/emtfxml/metadata/helpers.py::_capwords", "mt_metadata/utils/validators.py::validate_attribute"]}
{"id": "C10", "title": "GPS leap-second table is total and correct", "statement": "calculate_leap_seconds(y,m,d) returns for every calendar date from 1981-07-01 on the number of leap seconds inserted before that date (and is nondecreasing in the date); dates before raise ValueError.", "quantifier": "every date in and outside the table", "why_tests_cant": "The property ranges over every day of 45 years including interval boundaries.", "anchors": ["mt_metadata/common/mttime.py::calculate_leap_seconds", "mt_metadata/common/mttime.py::leap_second_dict"]}
{"id": "C11", "title": "MTime comparisons form a consistent total order", "statement": "For all times a,b: exactly one of a<b, a==b, a>b; <= is < or ==; >= is > or ==; < is transitive.", "quantifier": "every pair / triple of time stamps", "why_tests_cant": "Order laws quantify over triples.", "anchors": ["mt_metadata/common/mttime.py::MTime.__eq__", "mt_metadata/common/mttime.py::MTime.__lt__", "mt_metadata/common/mttime.py::MTime.__le__", "mt_metadata/common/mttime.py::MTime.__gt__", "mt_metadata/common/mttime.py::MTime.__ge__"]}
{"id": "C12", "title": "Parsed times are always inside the representable range", "statement": "Whatever number is given as epoch seconds, the parsed time lies in [pandas min, pandas max], in-range values are unchanged, and parsing is monotone.", "quantifier": "every numeric epoch input", "why_tests_cant": "Every magnitude of input.", "anchors": ["mt_metadata/common/mttime.py::_check_timestamp", "mt_metadata/common/mttime.py::_fix_out_of_bounds_time_stamp", "mt_metadata/common/mttime.py::parse"]}
{"id": "C13", "title": "MTime arithmetic: adding then subtracting a duration is the identity, and t2 - t1 recovers the duration", "statement": "(t + d) - t = d and (t + d) - d = t for every time and duration whose sum stays representable.", "quantifier": "every time and duration", "why_tests_cant": "Universal algebraic law.", "anchors": ["mt_metadata/common/mttime.py::MTime.__add__", "mt_metadata/common/mttime.py::MTime.__sub__"]}
{"id": "C14", "title": "Unit validation is idempotent", "statement": "Validating an already validated unit string returns it unchanged.", "quantifier": "every unit string the validator accepts", "why_tests_cant": "The unit grammar is compositional (prefix x unit, products, quotients): unbounded strings.", "anchors": ["mt_metadata/common/units.py::get_unit_object", "mt_metadata/common/units.py::parse_unit_string", "mt_metadata/common/units.py::Unit.combine"]}
{"id": "C15", "title": "Harmonic indices set from frequencies are exactly the harmonics inside the band", "statement": "After setting a band's indices from a sorted frequency axis, index_min..index_max are precisely the positions whose frequency lies in the band interval, honouring which ends are closed.", "quantifier": "every increasing frequency axis and every band", "why_tests_cant": "All axes and all positions of the edges.", "anchors": ["mt_metadata/common/band.py::Band._indices_from_frequencies", "mt_metadata/common/band.py::Band.set_indices_from_frequencies", "mt_metadata/common/band.py::Band.harmonic_indices"]}
{"id": "C16", "title": "Band interval predicates are consistent", "statement": "overlaps is symmetric; contains implies overlaps for non-empty bands; every band contains itself.", "quantifier": "every pair of bands and closure settings", "why_tests_cant": "All orderings of four end points times closure flags.", "anchors": ["mt_metadata/common/band.py::Band.overlaps", "mt_metadata/common/band.py::Band.contains", "mt_metadata/common/band.py::Band.to_interval"]}
{"id": "C17", "title": "Frequency band tables: sorting and lookup", "statement": "sort() by lower/upper/centre key permutes bands into nondecreasing order of that key; bands()/band(i) return the i-th band of the sorted (ascending or descending) table; validate() makes band centres monotone.", "quantifier": "every list of bands", "why_tests_cant": "Universal over list contents.", "anchors": ["mt_metadata/processing/aurora/frequency_bands.py::FrequencyBands.sort", "mt_metadata/processing/aurora/frequency_bands.py::FrequencyBands.bands", "mt_metadata/processing/aurora/frequency_bands.py::FrequencyBands.band", "mt_metadata/processing/aurora/frequency_bands.py::FrequencyBands.validate"]}
{"id": "C18", "title": "A channel response is accepted only with an unbroken unit chain", "statement": "Constructing or editing a ChannelResponse either fails or leaves filters whose units_out of each filter equals units_in of the next, so overall units_in/units_out are those of the first/last filter.", "quantifier": "every list of filters", "why_tests_cant": "All chain lengths.", "anchors": ["mt_metadata/timeseries/filters/channel_response.py::ChannelResponse._check_consistency_of_units", "mt_metadata/timeseries/filters/channel_response.py::ChannelResponse.units_in", "mt_metadata/timeseries/filters/channel_response.py::ChannelResponse.units_out"]}
{"id": "C19", "title": "Complex response is the product of the selected filters and splits over delay / non-delay filters", "statement": "complex_response = product of the responses of the filters kept by the include flags, so it is independent of filter order, appending a filter multiplies by its response, and response(all) = response(non-delay) x response(delays); total delay is the sum of delays.", "quantifier": "every filter list and frequency", "why_tests_cant": "All list lengths and flags.", "anchors": ["mt_metadata/timeseries/filters/channel_response.py::ChannelResponse.complex_response", "mt_metadata/timeseries/filters/channel_response.py::ChannelResponse.non_delay_filters", "mt_metadata/timeseries/filters/channel_response.py::ChannelResponse.delay_filters", "mt_metadata/timeseries/filters/channel_response.py::ChannelResponse.total_delay", "mt_metadata/timeseries/filters/channel_response.py::ChannelResponse.get_indices_of_filters_to_remove"]}
{"id": "C20", "title": "FIR symmetry expansion produces a symmetric impulse response", "statement": "For symmetry EVEN/ODD the expanded coefficient list reads the same forwards and backwards and has length 2n / 2n-1.", "quantifier": "every coefficient list", "why_tests_cant": "All lengths.", "anchors": ["mt_metadata/timeseries/filters/fir_filter.py::FIRFilter.symmetry_corrected_coefficients"]}
{"id": "C21", "title": "Channel filter list stays ordered by stage under add/remove", "statement": "After any sequence of add_filter/remove_filter the stages are nondecreasing; remove_filter of a present filter removes exactly it, keeps the order of the others and renumbers stages 1..n; names are never duplicated.", "quantifier": "every sequence of operations and names", "why_tests_cant": "Histories of operations.", "anchors": ["mt_metadata/timeseries/channel.py::ChannelBase.add_filter", "mt_metadata/timeseries/channel.py::ChannelBase.remove_filter", "mt_metadata/timeseries/channel.py::ChannelBase.get_filter"]}
{"id": "C22", "title": "Run.add_channel / get_channel / remove_channel keep channel lists consistent", "statement": "After any sequence of add/remove, has_channel(c) iff c was added after its last removal; channels_recorded_* partition the channels by type; re-adding an existing channel does not duplicate it.", "quantifier": "every sequence of operations and component names", "why_tests_cant": "Histories.", "anchors": ["mt_metadata/timeseries/run.py::Run.add_channel", "mt_metadata/timeseries/run.py::Run.remove_channel", "mt_metadata/timeseries/run.py::Run.has_channel", "mt_metadata/timeseries/run.py::Run.channels_recorded_all"]}
{"id": "C23", "title": "Run and station time periods enclose their parts", "statement": "After update_time_period (called by every add), the container's period covers the period of every child with a set time, never shrinks, and the default 1980 time of a child is ignored.", "quantifier": "every list of children and every current period", "why_tests_cant": "All orderings and defaults patterns.", "anchors": ["mt_metadata/timeseries/run.py::Run.update_time_period", "mt_metadata/timeseries/station.py::Station.update_time_period", "mt_metadata/timeseries/survey.py::Survey.update_time_period", "mt_metadata/processing/fourier_coefficients/fc.py::FC.update_time_period"]}
{"id": "C24", "title": "Station run bookkeeping: removing a run removes only that run", "statement": "remove_run(id) drops that run, leaves other runs' channel lists untouched, and run_list equals the ids of runs afterwards.", "quantifier": "every station state", "why_tests_cant": "The failing states need particular channel distributions across runs.", "anchors": ["mt_metadata/timeseries/station.py::Station.remove_run", "mt_metadata/timeseries/station.py::Station.update_run_list", "mt_metadata/timeseries/station.py::Station.validate_runs_and_channels_recorded"]}
{"id": "C25", "title": "Adding runs to a station keeps run_list and runs in step", "statement": "After any sequence of add_run the run_list is the list of run ids in first-insertion order, without duplicates, and get_run(id) returns a run with that id.", "quantifier": "every sequence of add_run", "why_tests_cant": "Histories.", "anchors": ["mt_metadata/timeseries/station.py::Station.add_run", "mt_metadata/timeseries/station.py::Station.get_run", "mt_metadata/timeseries/station.py::Station.has_run"]}
{"id": "C26", "title": "Survey bounding box is the tight box around its stations", "statement": "After add_station/remove_station with update, every station lies in the box and each side touches a station; independent of insertion order.", "quantifier": "every nonempty multiset of station locations", "why_tests_cant": "Universal over sets and order.", "anchors": ["mt_metadata/timeseries/survey.py::Survey.update_bounding_box", "mt_metadata/timeseries/survey.py::Survey.add_station", "mt_metadata/timeseries/survey.py::Survey.remove_station"]}
{"id": "C27", "title": "Merging experiments is a union by survey id", "statement": "merge keeps every survey of both, no duplicates, order of first then second.", "quantifier": "every pair of experiments", "why_tests_cant": "Universal over contents.", "anchors": ["mt_metadata/timeseries/experiment.py::Experiment.merge", "mt_metadata/timeseries/experiment.py::Experiment.add_survey", "mt_metadata/timeseries/experiment.py::Experiment.get_survey"]}
{"id": "C28", "title": "MetadataBase.update copies every set value and never erases one", "statement": "x.update(y): each attribute for which y holds a set value afterwards equals y's; others keep x's value.", "quantifier": "every pair of objects", "why_tests_cant": "All combinations of null/non-null values.", "anchors": ["mt_metadata/base/metadata.py::MetadataBase.update"]}
{"id": "C29", "title": "Metadata equality is reflexive and symmetric", "statement": "x == x, and x == y implies y == x.", "quantifier": "every pair of objects", "why_tests_cant": "Universal law.", "anchors": ["mt_metadata/base/metadata.py::MetadataBase.__eq__"]}
{"id": "C30", "title": "Dictionary round trip of a metadata object", "statement": "from_dict(to_dict(x)) restores every attribute of x.", "quantifier": "every object", "why_tests_cant": "All attribute contents.", "anchors": ["mt_metadata/base/metadata.py::MetadataBase.to_dict", "mt_metadata/base/metadata.py::MetadataBase.from_dict"]}
{"id": "C31", "title": "Comment string round trip", "statement": "A comment whose author and text hold no '|' and no blanks around them (and whose author, if no time is set, does not read as a time) comes back with the same time, author and text when it is written as a string and parsed; whatever string a comment was understood from, the string written for it is understood in the same way. Outside this domain the round trip fails: bars, outer blanks, an author that reads as a time, a missing text, more than three parts.", "quantifier": "every comment with a text, every string, every reader and writer of times that are inverse to each other", "why_tests_cant": "Separator characters can appear anywhere.", "anchors": ["mt_metadata/common/comment.py::Comment.as_string", "mt_metadata/common/comment.py::Comment.set_variables"]}
{"id": "C32", "title": "Degrees-minutes-seconds conversion round trip", "statement": "Converting a decimal position to a DMS string and back returns it to within the 4-decimal second rounding (0.00005\"), sign included; minutes and seconds written are below 60.", "quantifier": "every position in [-180, 180]", "why_tests_cant": "Continuum of values; sign and rounding boundary.", "anchors": ["mt_metadata/utils/location_helpers.py::convert_position_float2str", "mt_metadata/utils/location_helpers.py::convert_position_str2float"]}
{"id": "C33", "title": "Accepted positions are within range", "statement": "validate_position returns only latitudes in [-90,90] and longitudes in [-180,180], returns in-range numbers unchanged, None gives 0, everything else raises.", "quantifier": "every number", "why_tests_cant": "Continuum.", "anchors": ["mt_metadata/utils/location_helpers.py::validate_position"]}
{"id": "C34", "title": "FDSN period code covers every sample rate in the standard bands", "statement": "get_period_code(sr) returns the code whose band contains sr; adjacent bands are disjoint and no positive rate is left to the fallback.", "quantifier": "every positive sample rate", "why_tests_cant": "Continuum with boundary cases.", "anchors": ["mt_metadata/timeseries/stationxml/fdsn_tools.py::get_period_code", "mt_metadata/timeseries/stationxml/fdsn_tools.py::period_code_dict"]}
{"id": "C35", "title": "Orientation code classification is total and direction-insensitive", "statement": "get_orientation_code depends on azimuth only modulo 180 degrees and classifies every angle.", "quantifier": "every azimuth", "why_tests_cant": "Continuum; trigonometric.", "anchors": ["mt_metadata/timeseries/stationxml/fdsn_tools.py::get_orientation_code"]}
{"id": "C36", "title": "FDSN channel code round trip", "statement": "read_channel_code(make_channel_code(sr, type, azimuth)) returns a period band containing sr, the same measurement class and the orientation.", "quantifier": "every sample rate, measurement type and azimuth", "why_tests_cant": "Product domain.", "anchors": ["mt_metadata/timeseries/stationxml/fdsn_tools.py::make_channel_code", "mt_metadata/timeseries/stationxml/fdsn_tools.py::read_channel_code"]}
{"id": "C37", "title": "Enumeration normalisation", "statement": "A case variant of an enumeration member is accepted as that member, normalisation is idempotent, other strings are rejected.", "quantifier": "every string", "why_tests_cant": "All case patterns.", "anchors": ["mt_metadata/common/enumerations.py::StrEnumerationBase"]}
{"id": "C38", "title": "Decimation levels given to Processing are kept once each", "statement": "Processing(decimations=[l0..ln]) has exactly those levels.", "quantifier": "every list of levels", "why_tests_cant": "All list shapes.", "anchors": ["mt_metadata/processing/aurora/processing.py::Processing.validate_decimations", "mt_metadata/processing/aurora/processing.py::Processing.decimations_dict"]}
{"id": "C39", "title": "Sample rate of each decimation level is the base rate divided by the product of factors", "statement": "After assign_bands / fc_decimations_creator with base rate r and factors d1..dn, level k has sample rate r/(d1*...*dk).", "quantifier": "every rate and factor list", "why_tests_cant": "All lengths.", "anchors": ["mt_metadata/processing/aurora/processing.py::Processing.assign_bands", "mt_metadata/processing/fourier_coefficients/decimation.py::fc_decimations_creator"]}
{"id": "C40", "title": "An FC archive built from a decimation level is accepted as consistent with it", "statement": "level.is_consistent_with_archived_fc_parameters(level.to_fc_decimation(...)) is True.", "quantifier": "every decimation level", "why_tests_cant": "All parameter combinations.", "anchors": ["mt_metadata/processing/aurora/decimation_level.py::DecimationLevel.to_fc_decimation", "mt_metadata/processing/aurora/decimation_level.py::DecimationLevel.is_consistent_with_archived_fc_parameters"]}
{"id": "C41", "title": "A time series is valid for a decimation level iff enough windows fit", "statement": "With at least one required window and an overlap not longer than the window, is_valid_for_time_series_length(n) is True exactly when min_num_stft_windows windows, each advanced by window minus overlap, fit in n samples. With no required window (the default) or a longer overlap it does not mean this.", "quantifier": "every n, window length, overlap up to the window length, minimum of one or more", "why_tests_cant": "Integer arithmetic over unbounded values.", "anchors": ["mt_metadata/processing/fourier_coefficients/decimation.py::Decimation.is_valid_for_time_series_length", "mt_metadata/processing/window.py::Window.num_samples_advance"]}
{"id": "C42", "title": "FC decimation: a channel just added is present", "statement": "After add_channel(c), has_channel(c) is True and get_channel(c) returns it; remove_channel(c) undoes it.", "quantifier": "every state", "why_tests_cant": "Depends on state histories.", "anchors": ["mt_metadata/processing/fourier_coefficients/decimation.py::Decimation.add_channel", "mt_metadata/processing/fourier_coefficients/decimation.py::Decimation.has_channel", "mt_metadata/processing/fourier_coefficients/decimation.py::Decimation.remove_channel"]}
{"id": "C43", "title": "Dataset dataframe round trip for a processing station", "statement": "A processing station whose runs have different ids and set periods, written as a dataset table and read back, is the same station: name, path, remote flag, runs, time periods, rates, channels and scale factors in order; likewise the local and remote stations of a configuration. Whatever table is read, no interval is lost or invented. Outside: a run without a period, a run listed twice, rows with different channels, a station without runs, a remote station not flagged, a table with remote rows only.", "quantifier": "every station and every configuration that a table can hold; every table for the second part", "why_tests_cant": "All run/time-period lists.", "anchors": ["mt_metadata/processing/aurora/station.py::Station.to_dataset_dataframe", "mt_metadata/processing/aurora/station.py::Station.from_dataset_dataframe", "mt_metadata/processing/aurora/stations.py::Stations.from_dataset_dataframe"]}
{"id": "C44", "title": "Channel nomenclatures are unambiguous", "statement": "For every nomenclature keyword the five standard components map to five distinct labels, unpacking is the inverse of mapping, and setting the keyword sets all labels.", "quantifier": "every keyword and component", "why_tests_cant": "Finite but stated for all labels.", "anchors": ["mt_metadata/transfer_functions/__init__.py::CHANNEL_MAPS", "mt_metadata/processing/aurora/channel_nomenclature.py::ChannelNomenclature"]}
{"id": "C45", "title": "Taper weight kernels are monotone weights in [0,1]", "statement": "For lower<=upper bounds, every taper style yields weights in [0,1]; low-cut weights are nondecreasing, high-cut nonincreasing in the feature value; below/above the transition they are at their extreme.", "quantifier": "every value, bounds and style", "why_tests_cant": "Continuum, trig functions.", "anchors": ["mt_metadata/features/weights/taper_monotonic_weight_kernel.py::TaperMonotonicWeightKernel", "mt_metadata/features/weights/taper_weight_kernel.py::TaperWeightKernel"]}
{"id": "C46", "title": "Activation kernels are monotone weights in [0,1]", "statement": "For finite lower<upper and steepness>=0 the activation kernels are in [0,1] and monotone in the direction of the threshold.", "quantifier": "every value, bounds, steepness, style", "why_tests_cant": "Continuum.", "anchors": ["mt_metadata/features/weights/activation_monotonic_weight_kernel.py::ActivationMonotonicWeightKernel"]}
{"id": "C47", "title": "Combined feature and channel weights stay in [0,1]", "statement": "FeatureWeightSpec.evaluate and ChannelWeightSpec.evaluate with any combination style return a value in [0,1] when each kernel does; no kernels gives 1; minimum <= mean <= maximum and product <= minimum.", "quantifier": "every list of kernels", "why_tests_cant": "All list lengths.", "anchors": ["mt_metadata/features/weights/feature_weight_spec.py::FeatureWeightSpec.evaluate", "mt_metadata/features/weights/channel_weight_spec.py::ChannelWeightSpec.evaluate"]}
{"id": "C48", "title": "EDI data blocks read back the values written", "statement": "The numbers written to the data blocks of an EDI file (frequencies, impedances, tippers, variances, rotation angles, any length, rising or falling frequencies) are read back in their places to half a unit of the seventh digit, zeros and missing values restored from the empty marker, and writing what was read gives the same file, provided the marker has at most seven digits, no number prints like it, and a zero tipper has no errors. Without these provisos it fails.", "quantifier": "every set of arrays of equal lengths (two or more positive frequencies), every marker and number meeting the provisos", "why_tests_cant": "Line-wrapping boundaries (multiples of the block length).", "anchors": ["mt_metadata/transfer_functions/io/edi/edi.py::EDI._write_data_block", "mt_metadata/transfer_functions/io/edi/edi.py::EDI._read_mt"]}
{"id": "C49", "title": "Impedance from EDI spectra satisfies the least-squares relation", "statement": "The transfer function computed from cross-power spectra of data obeying E = Z H is Z, for 4, 5 and 7 channel files.", "quantifier": "every spectral matrix with invertible <R,H>", "why_tests_cant": "Universal linear-algebra identity.", "anchors": ["mt_metadata/transfer_functions/io/edi/edi.py::EDI._read_spectra"]}
{"id": "C50", "title": "Reading an EDI file orders everything from high to low frequency", "statement": "Whatever EDI file is read, frequency, impedance, tipper and their variances at one index come from one place of the file, and a file with rising or falling frequencies is read from high to low. The rotation angles are not part of this: they keep the order of the file; other orders of frequencies are kept, and a single frequency raises IndexError.", "quantifier": "every file that is read", "why_tests_cant": "All frequency orders.", "anchors": ["mt_metadata/transfer_functions/io/edi/edi.py::EDI._assert_descending_frequency", "mt_metadata/transfer_functions/io/edi/edi.py::EDI._read_mt"]}
{"id": "C51", "title": "Z-file covariance matrices are Hermitian and survive a write/read cycle", "statement": "Writing a Z file and reading it back gives every period with its decimation data, every transfer function entry and every covariance entry to the precision of the file; reading lower-triangular blocks always gives matrices Hermitian off the diagonal, and writing what was read gives the same text.", "quantifier": "every list of periods, every number of output channels, every header", "why_tests_cant": "All sizes and numbers.", "anchors": ["mt_metadata/transfer_functions/io/zfiles/zmm.py::ZMM._fill_res_array_from_block", "mt_metadata/transfer_functions/io/zfiles/zmm.py::ZMM._fill_sig_array_from_block", "mt_metadata/transfer_functions/io/zfiles/zmm.py::ZMM.write"]}
{"id": "C52", "title": "Rotation to geographic coordinates is physically consistent", "statement": "calculate_impedance maps the geographic magnetic field to the geographic electric field whenever the measured transfer function maps the sensor fields; orthogonal sensors aligned with the axes give the identity.", "quantifier": "every sensor azimuth pair with non-parallel sensors, every transfer function", "why_tests_cant": "Continuum linear algebra.", "anchors": ["mt_metadata/transfer_functions/io/zfiles/zmm.py::ZMM.calculate_impedance", "mt_metadata/transfer_functions/io/zfiles/zmm.py::ZMM.calculate_tippers"]}
{"id": "C53", "title": "J-file periods are sorted and paired with their data", "statement": "Periods read from a J-file are increasing and each component value at a period is the one listed for it.", "quantifier": "every file", "why_tests_cant": "All period lists.", "anchors": ["mt_metadata/transfer_functions/io/jfiles/jfile.py::JFile.read"]}
{"id": "C54", "title": "StationXML comment dictionaries survive a write/read cycle", "statement": "A StationXML comment written from up to 21 key/value pairs without ':' and ',' (the last value may hold ',') is parsed back to the same pairs; an author with a comment of any text is parsed back too. More pairs are lost, values with ':' are cut, ',' shifts text into the next key, subjects are kept exactly when they hold no capitals or blanks.", "quantifier": "every list of pairs within these limits, every author and comment", "why_tests_cant": "Unbounded length; recursion depth limit.", "anchors": ["mt_metadata/timeseries/stationxml/utils.py::BaseTranslator.read_xml_comment", "mt_metadata/timeseries/stationxml/utils.py::BaseTranslator.make_mt_comments"]}
{"id": "C55", "title": "Translator dictionaries flip consistently", "statement": "flip_dict gives every translated name the key of the last entry with that name (alone or in a list), so names that one key has are inverted exactly, and nothing else is in it.", "quantifier": "every translation dictionary", "why_tests_cant": "Duplicates and list values.", "anchors": ["mt_metadata/timeseries/stationxml/utils.py::BaseTranslator.flip_dict"]}
{"id": "C56", "title": "key=value lines are tokenised faithfully", "statement": "A line made of key=value pairs, with any white space around '=', after a tag and before a comment or not, is split into exactly those pairs, when every key has one value without blanks; in general the words between white space and '=' are taken two by two if their number is even and returned singly if it is odd.", "quantifier": "every list of pairs and spacing; every line for the second part", "why_tests_cant": "All spacings.", "anchors": ["mt_metadata/transfer_functions/io/tools.py::_validate_str_with_equals"]}
{"id": "C57", "title": "Aggregated harmonic indices of a decimation level are the sorted union of its bands", "statement": "harmonic_indices lists every harmonic of every band, sorted.", "quantifier": "every list of bands", "why_tests_cant": "All lists.", "anchors": ["mt_metadata/processing/aurora/decimation_level.py::DecimationLevel.harmonic_indices", "mt_metadata/processing/aurora/decimation_level.py::DecimationLevel.band_edges", "mt_metadata/processing/aurora/decimation_level.py::DecimationLevel.lower_bounds"]}
{"id": "C58", "title": "FFT harmonics of a window are all frequencies from 0 below Nyquist", "statement": "get_fft_harmonics(n, sr) returns k*sr/n for every k with 0 <= k*sr/n < sr/2.", "quantifier": "every n and rate", "why_tests_cant": "All n parity.", "anchors": ["mt_metadata/processing/window.py::get_fft_harmonics"]}
{"id": "C59", "title": "Standards dictionary container semantics", "statement": "In the dictionary of standards (BaseDict) a stored entry is looked up under its key and no other key changes; a key that was not stored is reported as absent and get gives its default; adding a dictionary under a name prefixes every key with it and keeps the others; accepting an entry twice changes nothing; writing the dictionary to csv and reading it back gives the same entries; and exporting to latex leaves the dictionary alone.", "quantifier": "every dictionary, key, prefix and entry", "why_tests_cant": "All key sets, prefixes, descriptions, options and defaults.", "anchors": ["mt_metadata/base/schema.py::BaseDict", "mt_metadata/base/schema.py::BaseDict.add_dict", "mt_metadata/base/schema.py::BaseDict.to_csv", "mt_metadata/base/schema.py::BaseDict.from_csv", "mt_metadata/base/schema.py::BaseDict.to_latex", "mt_metadata/utils/validators.py::validate_value_dict", "mt_metadata/utils/validators.py::validate_default"]}
{"id": "C60", "title": "XML element conversion round trip", "statement": "element_to_dict(dict_to_xml(d)) equals d up to the documented collapse of one-element lists.", "quantifier": "every nested dictionary", "why_tests_cant": "Unbounded depth.", "anchors": ["mt_metadata/base/helpers.py::dict_to_xml", "mt_metadata/base/helpers.py::recursive_split_xml", "mt_metadata/base/helpers.py::element_to_dict"]}
{"id": "C61", "title": "Constructor keywords, flat and dotted, all reach the object", "statement": "Every keyword given to a metadata constructor, plain or dotted ('location.latitude'), is a value of the constructed object.", "quantifier": "every keyword dictionary", "why_tests_cant": "All mixes and orders of plain, dict-valued and dotted keywords.", "anchors": ["mt_metadata/base/metadata.py::DotNotationBaseModel.__init__", "mt_metadata/base/metadata.py::DotNotationBaseModel._set_nested_attribute"]}
{"id": "C62", "title": "Validated station names are safe identifiers", "statement": "A station name that validation accepts comes back non-empty and made only of letters, digits and underscores, keeps its alphanumeric characters in order, and validating it again changes nothing; a name with any other character is rejected.", "quantifier": "every string", "why_tests_cant": "Infinitely many strings, embedded newlines and white space.", "anchors": ["mt_metadata/utils/validators.py::validate_station_name"]}
{"id": "C63", "title": "Schema-field validators normalise to a fixed point", "statement": "Normalised types, styles, units, required flags and option lists are accepted again unchanged, and options are trimmed, bracket-free and never empty or none-like.", "quantifier": "every string", "why_tests_cant": "Infinitely many strings; substring-based matching.", "anchors": ["mt_metadata/utils/validators.py::validate_type", "mt_metadata/utils/validators.py::validate_style", "mt_metadata/utils/validators.py::validate_units", "mt_metadata/utils/validators.py::validate_required", "mt_metadata/utils/validators.py::validate_options"]}
{"id": "C64", "title": "MDate day arithmetic", "statement": "For dates without time of day, adding n days and subtracting the date gives n, and a date minus itself is zero. A date constructed with a time of day minus itself is not zero.", "quantifier": "every date without time of day and every number of days that stays representable", "why_tests_cant": "All dates and offsets.", "anchors": ["mt_metadata/common/mttime.py::MDate.__add__", "mt_metadata/common/mttime.py::MDate.__sub__"]}
{"id": "C65", "title": "Compound units are validated part by part", "statement": "A unit written as a quotient (slash or 'per') or product (blanks) of unit names or symbols is stored as the canonical spelling of its validated parts, with the same operators; a unit's name in any letter case and its symbol name that unit.", "quantifier": "every compound of any length, every operator spelling, every unit of the table", "why_tests_cant": "Unbounded compounds, all spellings.", "anchors": ["mt_metadata/common/units.py::parse_unit_string", "mt_metadata/common/units.py::get_unit_object", "mt_metadata/common/units.py::get_unit_from_df"]}
{"id": "C66", "title": "A FIR filter has its stated gain at its reference frequency", "statement": "The amplitude of complex_response at gain_frequency equals the filter's gain, whatever the coefficients, symmetry and sample rate, provided the coefficients do not cancel there.", "quantifier": "every coefficient list, symmetry, gain, sample rate and reference frequency", "why_tests_cant": "Unbounded coefficient lists and real parameters.", "anchors": ["mt_metadata/timeseries/filters/fir_filter.py::FIRFilter.complex_response", "mt_metadata/timeseries/filters/fir_filter.py::FIRFilter.corrective_scalar", "mt_metadata/timeseries/filters/fir_filter.py::FIRFilter.coefficient_gain"]}
{"id": "C67", "title": "A filter keeps its response through an obspy stage", "statement": "Converting a filter to an obspy response stage and back yields a filter with the same complex response at every frequency.", "quantifier": "every filter, unit lookup and normalization frequency", "why_tests_cant": "Infinitely many filters; response equality at all frequencies.", "anchors": ["mt_metadata/timeseries/filters/obspy_stages.py::create_filter_from_stage", "mt_metadata/timeseries/filters/channel_response.py::ChannelResponse.to_obspy", "mt_metadata/timeseries/filters/filter_base.py::FilterBase.from_obspy_stage"]}
{"id": "C68", "title": "A table filter reproduces its calibration table", "statement": "At every calibration frequency complex_response is gain x amplitude x exp(i phase) of the table, in whatever order the table is given; phases accepted as radians are stored unchanged, and validating stored phases changes nothing.", "quantifier": "every table with distinct frequencies", "why_tests_cant": "All table lengths and orders.", "anchors": ["mt_metadata/timeseries/filters/frequency_response_table_filter.py::FrequencyResponseTableFilter.complex_response", "mt_metadata/timeseries/filters/frequency_response_table_filter.py::FrequencyResponseTableFilter.validate_phases"]}
{"id": "C69", "title": "Runs of a station can be sorted by start time", "statement": "station.sort_runs_by_time() orders the runs of any station by their start times.", "quantifier": "every station", "why_tests_cant": "The sort must work for every set of start times; no test calls it.", "anchors": ["mt_metadata/timeseries/station.py: Station.sort_runs_by_time", "mt_metadata/common/mttime.py: MTime"]}
{"id": "C70", "title": "Adding a station again merges its runs", "statement": "Survey.add_station with a station whose id is already in the survey keeps every run of the old station, unchanged, and brings in the runs that only the new one has.", "quantifier": "every pair of stations under the same id", "why_tests_cant": "All pairs of run/channel contents.", "anchors": ["mt_metadata/timeseries/survey.py::Survey.add_station", "mt_metadata/base/metadata.py::MetadataBase.update", "mt_metadata/timeseries/station.py::Station.validate_runs_and_channels_recorded"]}
{"id": "C71", "title": "Times written as ISO text read back", "statement": "MTime(t.isoformat()) == t and MTime(t.iso_no_tz) == t for every time made by MTime; different times have different texts; the date part is the Gregorian calendar date. A stamp given more than 500 ns by its setter is rounded on reading, and from_dict stores the text unparsed.", "quantifier": "every time stamp that MTime makes from an input", "why_tests_cant": "584 years of nanoseconds; leap years, optional fraction digits, end points.", "anchors": ["mt_metadata/common/mttime.py::MTime.isoformat", "mt_metadata/common/mttime.py::MTime.iso_no_tz", "mt_metadata/common/mttime.py::parse", "mt_metadata/common/mttime.py::MTime.from_dict"]}
{"id": "C72", "title": "Setting one component of a time changes only that component", "statement": "t.year = n (month, day, hour, minutes, seconds, microseconds, nanoseconds) makes that component n and leaves the others, or raises when there is no such time.", "quantifier": "every time, component and value", "why_tests_cant": "All combinations of dates and values.", "anchors": ["mt_metadata/common/mttime.py::MTime.year", "mt_metadata/common/mttime.py::MTime.nanoseconds"]}
{"id": "C73", "title": "Licences are stored under their identifier and accepted again", "statement": "A licence given in any spelling (separators exchanged) is stored as its SPDX identifier; what is stored is accepted again; leaving it out gives the default; other texts are refused; the release status written to StationXML follows from the licence.", "quantifier": "every text and every licence of the list", "why_tests_cant": "All spellings of 684 identifiers; reading back what was stored.", "anchors": ["mt_metadata/common/copyright.py::Copyright.validate_license", "mt_metadata/common/enumerations.py::LicenseEnumMeta", "mt_metadata/timeseries/stationxml/fdsn_tools.py::release_dict"]}
{"id": "C74", "title": "An archived spectrogram is reused only if it was computed with the same parameters", "statement": "is_consistent_with_archived_fc_parameters(archive) is True exactly when the archive holds the required channels and harmonics and has the same filter, sample rate, method, prewhitening, recoloring, detrending, window and minimum number of windows.", "quantifier": "every level, archive and remote flag", "why_tests_cant": "All parameter combinations.", "anchors": ["mt_metadata/processing/aurora/decimation_level.py::DecimationLevel.is_consistent_with_archived_fc_parameters"]}
{"id": "C75", "title": "Bands assigned to decimation levels come back and cover the right harmonics", "statement": "After assign_bands with edges for levels 0..n-1, band_edges_dict returns those edges for every level, and the harmonics of each band are exactly the FFT harmonics of the level inside it.", "quantifier": "every edges, rate, factors and window lengths", "why_tests_cant": "All lists and orders.", "anchors": ["mt_metadata/processing/aurora/processing.py::Processing.assign_bands", "mt_metadata/processing/aurora/processing.py::Processing.band_edges_dict"]}
{"id": "C76", "title": "The period of Fourier coefficients covers its parts", "statement": "After adding a channel or level the parent's time period covers every part with known times, no time that was set is lost and none is invented.", "quantifier": "every parent and list of parts", "why_tests_cant": "All histories and time orders.", "anchors": ["mt_metadata/processing/fourier_coefficients/decimation.py::Decimation.update_time_period", "mt_metadata/processing/fourier_coefficients/fc.py::FC.update_time_period"]}
{"id": "C77", "title": "Apparent resistivity and phase blocks give the impedance they describe", "statement": "When an EDI file gives apparent resistivities and phases instead of an impedance component, the impedance read has that apparent resistivity and phase at every frequency; a component that was given as impedance is kept.", "quantifier": "every list of frequencies, positive resistivities and phases", "why_tests_cant": "All values; trigonometric identity over the reals.", "anchors": ["mt_metadata/transfer_functions/io/edi/edi.py::EDI._read_mt"]}
{"id": "C78", "title": "Station lines of a J-file give the station its location", "statement": "A line '>KEY = number' of a J-file sets the attribute with that name (in lower case) to that number; the first lines that mention latitude, longitude and elevation are first rewritten as 'name = number', with zero for what is not a number, and no other line is changed.", "quantifier": "every key, number and file", "why_tests_cant": "All names, numbers and positions of the lines.", "anchors": ["mt_metadata/transfer_functions/io/jfiles/metadata/header.py::Header.read_metadata", "mt_metadata/transfer_functions/io/jfiles/jfile.py::JFile._validate_j_file"]}
{"id": "C79", "title": "Header lines of a J-file give each key its value", "statement": "A header line of a J-file with pairs written 'key= value' or 'key=value' and other words between them gives every key the value written after it (a number if it reads as one), the last one if there are several, and no other keys. Of a list of values only the first is read, a blank before '=' loses the key, a single letter at the beginning joins the key.", "quantifier": "every line of such pairs and other words", "why_tests_cant": "All line contents.", "anchors": ["mt_metadata/transfer_functions/io/jfiles/metadata/header.py::Header._read_header_line"]}
{"id": "C80", "title": "A survey's release status survives StationXML", "statement": "The licence that is read for the restricted status written for any licence calls for the same status; the licence itself is the last one with that status, so it is kept for exactly one licence of each status.", "quantifier": "every licence of the list", "why_tests_cant": "All 600 and more licences; the table is flipped.", "anchors": ["mt_metadata/timeseries/stationxml/xml_network_mt_survey.py::XMLNetworkMTSurvey.xml_to_mt", "mt_metadata/timeseries/stationxml/utils.py::BaseTranslator.flip_dict"]}
{"id": "C81", "title": "Comments about a run reach that run", "statement": "The author and comments of a run's acquired_by and metadata_by, written to StationXML as comments of the station, are set on the run with that id when they are read, and comments never reach a run with another id.", "quantifier": "every run id, author and comment", "why_tests_cant": "All ids and texts.", "anchors": ["mt_metadata/timeseries/stationxml/xml_station_mt_station.py::XMLStationMTStation._add_run_comments", "mt_metadata/timeseries/stationxml/utils.py::BaseTranslator.read_xml_comment", "mt_metadata/timeseries/stationxml/utils.py::BaseTranslator.make_mt_comments"]}
{"id": "C82", "title": "Equipment descriptions and run ids survive StationXML", "statement": "What is known of a run's data logger (values without ':' and ',', at least one) is written to the description of the equipment and read back; a run id is read back from the resource id exactly when it has no ':'. A data logger without values gives an empty description that raises ValueError when read, as does any value with ':' or ','.", "quantifier": "every non-empty set of such values and every id", "why_tests_cant": "All texts.", "anchors": ["mt_metadata/timeseries/stationxml/xml_equipment_mt_run.py::XMLEquipmentMTRun._make_description", "mt_metadata/timeseries/stationxml/xml_equipment_mt_run.py::XMLEquipmentMTRun._parse_description"]}
{"id": "C83", "title": "Electrode ids, dipole length and the runs of a channel survive StationXML", "statement": "The ids of the electrodes, the length of the dipole and the list of runs of a channel are read back as written; its other comments are kept.", "quantifier": "every pair of ids, decimal length and list of runs", "why_tests_cant": "All texts and lists.", "anchors": ["mt_metadata/timeseries/stationxml/xml_channel_mt_channel.py::XMLChannelMTChannel._parse_electrode_ids", "mt_metadata/timeseries/stationxml/xml_channel_mt_channel.py::XMLChannelMTChannel._parse_dipole_length", "mt_metadata/timeseries/stationxml/xml_channel_mt_channel.py::XMLChannelMTChannel._make_xml_comments", "mt_metadata/timeseries/stationxml/xml_channel_mt_channel.py::XMLChannelMTChannel._parse_xml_comments"]}
{"id": "C84", "title": "Every channel of every run is in an epoch of StationXML", "statement": "When the runs of a station are written to StationXML, every channel of every run is in an epoch with its code, sample rate, instrument, position to three decimals and angles to two decimals, whose time covers the channel and which lists the run (unless a comment of the channel happens to be the id of the run). Conversely an epoch is about channels of the runs that it lists, starts with one of them and ends with one of them. When the runs are in the order of time the epochs of a code follow each other without overlap and a new one is made only after a change. Runs in another order can give overlapping epochs; filters and component names are not compared, so of two channels that differ only in these the second is lost; a component that does not end in x, y or z stops the whole station from being written.", "quantifier": "every list of runs with any channels, in any order", "why_tests_cant": "All runs, channels, times, orders and histories of changes.", "anchors": ["mt_metadata/timeseries/stationxml/xml_inventory_mt_experiment.py::XMLInventoryMTExperiment.add_run", "mt_metadata/timeseries/stationxml/xml_inventory_mt_experiment.py::XMLInventoryMTExperiment.compare_xml_channel", "mt_metadata/timeseries/stationxml/xml_channel_mt_channel.py::XMLChannelMTChannel.mt_to_xml"]}
{"id": "C86", "title": "The DEFINEMEAS section of an EDI file is read back", "statement": "What is written to the DEFINEMEAS section is read back: the attributes with their values and, under the name of each channel, its measurement with the same id (numbered when 0), channel type and acquisition channel and with coordinates rounded to two decimals, whatever comes before and after the section, when acquisition channels are non-empty words without the marks of the format and channel names begin with e or h. An empty acquisition channel makes the section unreadable; a magnetic channel b.. is given the previous measurement.", "quantifier": "every set of attributes, every dictionary of such measurements, every text around the section", "why_tests_cant": "All values, ids, orders and neighbouring sections.", "anchors": ["mt_metadata/transfer_functions/io/edi/metadata/define_measurement.py::DefineMeasurement.write_measurement", "mt_metadata/transfer_functions/io/edi/metadata/define_measurement.py::DefineMeasurement.read_measurement", "mt_metadata/transfer_functions/io/edi/metadata/define_measurement.py::DefineMeasurement.get_measurement_lists", "mt_metadata/transfer_functions/io/edi/metadata/emeasurement.py::EMeasurement.write_meas_line", "mt_metadata/transfer_functions/io/edi/metadata/hmeasurement.py::HMeasurement.write_meas_line"]}
{"id": "C87", "title": "The HEAD section of an EDI file is read back", "statement": "When the header of an EDI file is written and read again, each attribute comes back: texts without surrounding white space, times and the station name exactly, the elevation within half a millimetre, the empty value exactly and the position within the printed precision, whatever comes before and after the section; attributes without a value keep the value they had.", "quantifier": "every header, both position formats, with and without required only, every text before and after the section", "why_tests_cant": "All texts, times, numbers and neighbouring sections.", "anchors": ["mt_metadata/transfer_functions/io/edi/metadata/header.py::Header.write_header", "mt_metadata/transfer_functions/io/edi/metadata/header.py::Header.read_header", "mt_metadata/transfer_functions/io/edi/metadata/header.py::Header.get_header_list", "mt_metadata/transfer_functions/io/edi/metadata/header.py::Header._validate_header_list", "mt_metadata/transfer_functions/io/edi/edi.py::EDI._validate_edi_lines"]}
{"id": "C88", "title": "The INFO section of an EDI file is read back", "statement": "The entries of the INFO section that are written to an EDI file are found again after reading: under the key in lower case (or the standard name of a known key) with the same text, the last one if a key occurs several times, with processing parameters collected in order, whatever comes before and after the section, unless a value makes the section look like the Phoenix or Empower format. A parameter entry is dropped by a later entry that sets the whole list.", "quantifier": "every dictionary of texts, lists and numbers in the standard format, read from a file or from the lines, every neighbouring section", "why_tests_cant": "All keys, values, orders and neighbouring sections.", "anchors": ["mt_metadata/transfer_functions/io/edi/metadata/information.py::Information.write_info", "mt_metadata/transfer_functions/io/edi/metadata/information.py::Information.read_info", "mt_metadata/transfer_functions/io/edi/metadata/information.py::Information._parse_standard_info", "mt_metadata/transfer_functions/io/edi/metadata/information.py::Information._parse_phoenix_info", "mt_metadata/transfer_functions/io/edi/metadata/information.py::Information._parse_empower_info", "mt_metadata/transfer_functions/io/edi/metadata/information.py::Information._get_separator"]}
{"id": "C89", "title": "A TF object returns the arrays it was given", "statement": "An array of the right shape given for the impedance, tipper, transfer function, their errors or a covariance of a TF object gets into the entries of exactly these channels and periods and changes no other entry (but the errors, when a covariance is given); it is what reading returns, labelled with the channel names, unless it is all zero, and stays so through all later settings of other quantities. An array with labels is placed by its labels in whatever order they come. Other shapes, labels and periods are refused and leave the object unchanged. Outside this: model errors of the whole transfer function cannot be set; in an object of one period the first labelled array, or new periods when the period is 1, erase the rest; channel names changed after creation make the data unreachable; a covariance of zeros beside the other one raises.", "quantifier": "every consistent object (any periods, any five different channel names), every array and labelled array, every program of settings after it", "why_tests_cant": "All arrays, shapes, label orders and histories of settings.", "anchors": ["mt_metadata/transfer_functions/core.py::TF._set_data_array", "mt_metadata/transfer_functions/core.py::TF._validate_input_ndarray", "mt_metadata/transfer_functions/core.py::TF._validate_input_dataarray", "mt_metadata/transfer_functions/core.py::TF.impedance", "mt_metadata/transfer_functions/core.py::TF.tipper", "mt_metadata/transfer_functions/core.py::TF.transfer_function", "mt_metadata/transfer_functions/core.py::TF.transfer_function_error", "mt_metadata/transfer_functions/core.py::TF.period", "mt_metadata/transfer_functions/core.py::TF._has_impedance", "mt_metadata/transfer_functions/core.py::TF.channel_nomenclature", "mt_metadata/transfer_functions/core.py::TF.__init__"]}
{"id": "C90", "title": "Errors follow from the covariances", "statement": "Once the inverse signal power and the residual covariance of a TF object are both set, in whichever order, the error of output o and input i is the square root of the product of the magnitudes of the residual covariance of o and the inverse signal power of i, at every period.", "quantifier": "every consistent object, all covariances that are not all zero, both orders", "why_tests_cant": "All periods, channels, values and orders.", "anchors": ["mt_metadata/transfer_functions/core.py::TF._compute_error_from_covariance", "mt_metadata/transfer_functions/core.py::TF.inverse_signal_power", "mt_metadata/transfer_functions/core.py::TF.residual_covariance"]}
{"id": "C91", "title": "Merging transfer functions keeps the wanted rows and loses nothing else", "statement": "Merging into a TF with rising periods gives a TF with rising periods that holds, period by period and with all values, exactly the periods of the inputs within their inclusive bounds. It succeeds exactly when every input has a period within its bounds and the inputs do not overlap. Of several inputs that begin at the same period only the last one is kept.", "quantifier": "every TF with rising periods, every non-empty list of TFs in any order of periods with any bounds", "why_tests_cant": "All periods, bounds, numbers of inputs and orders.", "anchors": ["mt_metadata/transfer_functions/core.py::TF.merge"]}
{"id": "C92", "title": "The data of an EMTF XML file are read back", "statement": "When transfer functions with two or more periods are written to an EMTF XML file and read again, each period comes back to twelve decimals and each entry of each array to six decimals of its mantissa, in its place, whatever the other elements of the file are and however it is indented; when all the arrays are there, writing what was read gives the same elements again. Zeros and nan come back as 1e32, an array that is not there as zeros (and as 1e32 after the next writing), files with one period or none cannot be read, and elements that repeat and hold only text lose it.", "quantifier": "every set of arrays and periods, every file around them that is readable", "why_tests_cant": "All sizes, values, missing arrays and surrounding elements.", "anchors": ["mt_metadata/transfer_functions/io/emtfxml/metadata/data.py::TransferFunction.write_block", "mt_metadata/transfer_functions/io/emtfxml/metadata/data.py::TransferFunction.to_xml", "mt_metadata/transfer_functions/io/emtfxml/metadata/data.py::TransferFunction.read_dict", "mt_metadata/transfer_functions/io/emtfxml/metadata/data.py::TransferFunction.read_block", "mt_metadata/transfer_functions/io/emtfxml/metadata/helpers.py::_convert_keys_to_lower_case", "mt_metadata/transfer_functions/io/emtfxml/emtfxml.py::EMTFXML.read", "mt_metadata/base/helpers.py::element_to_dict"]}
{"id": "C93", "title": "Transfer functions go through EMTF XML files", "statement": "Every transfer function object can be turned into an EMTF XML object. Written to a file (two or more periods) and read into a new object, its periods come back to twelve decimals, impedance and tipper to six decimals of the mantissa, errors as the magnitude of the error to six digits, and the covariances of the magnetic channels, of the electric channels and of the vertical field when both covariances were there; what was not there is zero. Turned into an EMTF XML object and back without a file everything that was there is the same. Zeros and nan come back as 1e32 (errors as 1e16), covariances between electric channels and the vertical field are lost, so is the inverse signal power where the tipper has none; without a file the conversion raises as soon as impedance, tipper or a covariance is missing, and an object with other channel names cannot be filled.", "quantifier": "every transfer function object, every readable file around its data, every square root to twelve digits", "why_tests_cant": "All sizes, values and sets of quantities that are there.", "anchors": ["mt_metadata/transfer_functions/core.py::TF.to_emtfxml", "mt_metadata/transfer_functions/core.py::TF.from_emtfxml", "mt_metadata/transfer_functions/io/emtfxml/metadata/data.py::TransferFunction.to_xml", "mt_metadata/transfer_functions/io/emtfxml/metadata/data.py::TransferFunction.read_dict"]}
{"id": "C94", "title": "Transfer functions go through EDI files", "statement": "A transfer function object can be turned into an EDI object and back: periods, impedance, tipper, errors and rotation angles are the same, and what was not there stays zero. Written to a file (two or more positive periods, first two not falling) and read into a new object, periods come back to six digits, impedance and tipper to seven digits, errors as magnitudes to six digits, the rotation angle of each period to seven digits; nan comes back as zero; tippers without impedance and impedances without tipper work as well. With falling periods everything comes back in the opposite order except the rotation angles. Covariances and model errors are not kept, and an object whose rotation angles do not go with its periods cannot be written.", "quantifier": "every transfer function object with numbers in the range of doubles that are not the marker for missing values, every rotation, every square root to twelve digits", "why_tests_cant": "All sizes, values, sets of quantities that are there and rotation angles.", "anchors": ["mt_metadata/transfer_functions/core.py::TF.to_edi", "mt_metadata/transfer_functions/core.py::TF.from_edi", "mt_metadata/transfer_functions/io/edi/edi.py::EDI.write", "mt_metadata/transfer_functions/io/edi/edi.py::EDI._read_mt", "mt_metadata/transfer_functions/io/edi/edi.py::EDI._assert_descending_frequency"]}
{"id": "C95", "title": "The header of a Z file comes back", "statement": "When a header and at least one period are written to a Z file and read again, the station id, the processing type, latitude and longitude to three decimals, the declination to two, the numbers of channels and periods and, for every channel there is, its number, azimuth and tilt to two decimals come back; longitudes beyond 180 degrees are turned by 360. Channels with numbers of their own are listed by these numbers and in the same order after reading, so that the input and output channels are the same; together with the data the whole file comes back. Run and transfer function get the station id in lower case. The claim holds for station ids without the words station, coordinate, number, orientations or period: with them the file cannot be read or the channels are lost. A file without periods never finishes reading. Channels without numbers come back in another order, and without hz one of them is lost.", "quantifier": "every header whose ids and type do not contain the words of the format, every list of periods that can be written", "why_tests_cant": "All ids, locations, sets of channels, azimuths, numbers of periods and values.", "anchors": ["mt_metadata/transfer_functions/io/zfiles/zmm.py::ZMM.read_header", "mt_metadata/transfer_functions/io/zfiles/zmm.py::ZMM.write_header", "mt_metadata/transfer_functions/io/zfiles/zmm.py::ZMM.channels_recorded", "mt_metadata/transfer_functions/io/zfiles/zmm.py::ZMM.read", "mt_metadata/transfer_functions/io/zfiles/zmm.py::ZMM.write", "mt_metadata/transfer_functions/io/zfiles/metadata/channel.py::Channel.index"]}
{"id": "C96", "title": "Transfer functions go through Z files", "statement": "A transfer function object that has impedance or tipper and both covariances, converted, written to a Z file and read into a new object, comes back: periods to five decimals, every transfer function and the lower triangles of the covariances to five digits, the upper triangles as their conjugates, the errors as the square roots of the products of the covariances read, and everything that was not written as zero. Without rotation this holds for all channel orientations, and with the rotation that is the default for sensors along the axes. Without channel metadata a file with a tipper cannot be read by default and an impedance alone comes back as nan; without covariances the file cannot be turned into an object; an object without impedance and tipper, or with a further channel such as a temperature in its first run, cannot be converted; a channel missing in the run is counted but not written; and the converted object cannot be turned back without a file.", "quantifier": "every transfer function object whose names match its labels, every set of channels of its first run with any orientation, every readable header, every list of periods and finite values", "why_tests_cant": "All sizes, values, names, orientations and sets of quantities that are there.", "anchors": ["mt_metadata/transfer_functions/core.py::TF.to_zmm", "mt_metadata/transfer_functions/core.py::TF.from_zmm", "mt_metadata/transfer_functions/core.py::TF.make_zmm_run", "mt_metadata/transfer_functions/io/zfiles/zmm.py::ZMM.write", "mt_metadata/transfer_functions/io/zfiles/zmm.py::ZMM.read", "mt_metadata/transfer_functions/io/zfiles/zmm.py::ZMM._fill_dataset"]}
{"id": "C97", "title": "The header of an AVG file comes back", "statement": "When the header of a Zonge AVG object that names a smoothing and has two orientation angles or more is written, followed by any lines of data, and read into any header, every attribute comes back: the type of survey, array, transmitter and the processing options as they were, station name and version without outer blanks and in lower case, dipole length, latitude and longitude to seven decimals, the angles to one decimal, the unit by its name; the lines of data are those that follow, and nothing else in the header changes. A header without a smoothing (the default), with fewer than two angles (the default), or with an equals sign in a text cannot be read back, so the file of a new object never can; names with capital letters are not kept; a component such as tzx is refused when no blank is written before its equals sign.", "quantifier": "every header with finite numbers and texts on one line, every header read into, every non-empty list of data lines", "why_tests_cant": "All texts, positions, angles and following lines; the defaults that break reading are only visible when write and read are composed.", "anchors": ["mt_metadata/transfer_functions/io/zonge/metadata/header.py::Header.write_header", "mt_metadata/transfer_functions/io/zonge/metadata/header.py::Header.read_header", "mt_metadata/transfer_functions/io/zonge/metadata/rx.py::CmpEnum", "mt_metadata/transfer_functions/io/zonge/metadata/phase_slope.py::SmoothEnum"]}
{"id": "C98", "title": "The data of an AVG file come back", "statement": "When a Zonge AVG object with an impedance, frequencies that differ by more than a five-thousandth and a header that can be read back is written and read again in the same frame, the frequencies come back rising and to five digits, every impedance within 0.0071 percent of its size at the place of its frequency, the header too, and with z positive down the tipper as well; a tipper that is not there is not there afterwards. Writing what was read gives the same lines of data again. Any file read with z positive up has x and y exchanged and the opposite tipper. With z positive up a written tipper therefore comes back with the opposite sign; errors are not kept: an impedance error between a thousandth of the impedance and the impedance comes back at least 1.2 times too large, one of at most 0.024 percent as zero, a tipper error as the size of the tipper; frequencies with the same five digits become one; without an impedance nothing is written; after reading, changes to the impedance are not written; and a file written from a new object cannot be read.", "quantifier": "every object with finite values, any number of frequencies in any order, both frames, every header read into, magnitudes accurate to nine digits and phases to a millionth of a milliradian", "why_tests_cant": "All values, orders and numbers of frequencies, and every pair of write and read; the tests swallow the failing round trip.", "anchors": ["mt_metadata/transfer_functions/io/zonge/zonge.py::ZongeMTAvg.read", "mt_metadata/transfer_functions/io/zonge/zonge.py::ZongeMTAvg.write", "mt_metadata/transfer_functions/io/zonge/zonge.py::ZongeMTAvg._fill_z", "mt_metadata/transfer_functions/io/zonge/zonge.py::ZongeMTAvg._fill_t", "mt_metadata/transfer_functions/io/zonge/zonge.py::ZongeMTAvg._create_dataframe_from_arrays", "mt_metadata/transfer_functions/io/zonge/zonge.py::ZongeMTAvg.to_complex", "mt_metadata/transfer_functions/io/zonge/zonge.py::ZongeMTAvg.to_amp_phase", "mt_metadata/transfer_functions/core.py::TF.to_avg"]}
{"id": "C99", "title": "The channels of a run come back from StationXML", "statement": "When the epochs written for the runs of a station are read into a station with the same runs, every run gets exactly the channels it had, with their types, with the time of the run and with what its epoch says; runs and their times do not change. This holds for electric, magnetic and temperature channels whose codes tell the component and whose comments do not mention runs. The sample rate of the runs is not set; a list that names a run the station does not have raises AttributeError; auxiliary channels get a code that cannot be read; and in a file without run lists a channel that does not match the rate and times of a run is in no run.", "quantifier": "every list of runs and channels within these limits, every station with these runs", "why_tests_cant": "All runs, channels, times and codes; write and read are composed.", "anchors": ["mt_metadata/timeseries/stationxml/xml_inventory_mt_experiment.py::XMLInventoryMTExperiment.xml_to_mt", "mt_metadata/timeseries/stationxml/xml_channel_mt_channel.py::XMLChannelMTChannel.xml_to_mt", "mt_metadata/timeseries/run.py::Run.add_channel"]}
{"id": "C85", "title": "Pass band of a filter and normalization frequency of a channel", "statement": "For increasing frequencies pass_band gives two of them, the lower first. They are the start of the first flat window and the point after the last flat one (a window is flat when the logarithms of its smallest and largest amplitude agree to the tolerance), or the first and last frequency when no window is flat or the average of the response is one. Constant responses pass all of fewer than 2000 frequencies. The pass band of a channel is exactly the set of frequencies in all bands of its filters, and its normalization frequency is the geometric middle to three decimals. Not covered: a stretch with amplitude one is never flat, so the band of a filter of unit gain is outside its flat part, and depends on the gain; any response with average one passes everything; the last frequencies of a long list are left out; filters without a common frequency give a reversed band; the normalization frequency of long periods is zero; and it stays that of the first frequencies used.", "quantifier": "every list of frequencies, every response, window length and tolerance; every list of filters", "why_tests_cant": "All frequencies and responses, real logarithms, any number of filters.", "anchors": ["mt_metadata/timeseries/filters/filter_base.py::FilterBase.pass_band", "mt_metadata/timeseries/filters/channel_response.py::ChannelResponse.pass_band", "mt_metadata/timeseries/filters/channel_response.py::ChannelResponse.update_units_and_normalization_frequency_from_filters_list"]}
{"id": "C100", "title": "Sensitivity and total gain of a channel", "statement": "compute_instrument_sensitivity is the product of the amplitudes of all filters at the frequency, with a relative error of at most half a unit of the digit asked for, and one when the product is zero. What to_obspy writes as the sensitivity is always the product of the gains to sixteen digits, whatever the response at the normalization frequency written beside it; a gain of zero raises OverflowError.", "quantifier": "every list of filters, frequency and number of digits", "why_tests_cant": "All real responses and numbers of digits.", "anchors": ["mt_metadata/timeseries/filters/channel_response.py::ChannelResponse.compute_instrument_sensitivity", "mt_metadata/timeseries/filters/channel_response.py::ChannelResponse.compute_total_gain", "mt_metadata/timeseries/filters/channel_response.py::ChannelResponse.to_obspy"]}
{"id": "C101", "title": "Every channel read from StationXML keeps its own filters", "statement": "Reading the channels of a StationXML network one after another, each channel lists, in the order of its response stages, names under which the filters of the survey hold exactly the filters of those stages, also after all later channels have been read; provided that (1) named filters with the same name (lower case, 'per' for '/', with the decimation rate) are equal, (2) filters without a name have a type and rounded amplitude at 1 Hz that no different filter has and do not decimate, (3) no name contains the type of an unnamed filter and (4) there are at most a hundred unnamed ones of a type. Without each of these a filter can be replaced by another.", "quantifier": "all networks: any number of channels and stages, any names, types, decimation rates and amplitudes", "why_tests_cant": "the name a filter gets depends on all filters read before it, so the claim ranges over all histories of the dictionary of filters", "anchors": ["mt_metadata/timeseries/stationxml/xml_channel_mt_channel.py::XMLChannelMTChannel._xml_response_to_mt", "mt_metadata/timeseries/stationxml/xml_channel_mt_channel.py::XMLChannelMTChannel._add_filter_number", "mt_metadata/timeseries/stationxml/xml_inventory_mt_experiment.py::XMLInventoryMTExperiment.xml_to_mt"]}
{"id": "C102", "title": "The site layout of an EMTF XML file comes back", "statement": "Writing a site layout into an EMTF XML file and reading it gives in each of its two lists exactly the channels that were written, each of its kind, with its name (nothing for a name that stands for nothing, such as None) and its orientation and coordinates to half a thousandth; the magnetic channels come first, so the usual output channels ex, ey, hz come back as hz, ex, ey. A second cycle changes nothing. After reading, the lists are adapted to the data: the needed channels (hx and hy, ex and ey for an impedance with a value other than zero, hz for a tipper) stay with all their data, a bare channel is added for each missing one, all others go; a layout with just the needed channels is left as it is. Two channels of one name both stay.", "quantifier": "all layouts: any number of channels, names without the characters of C104 and rational numbers; all files with this element and others, any white space between elements; all data arrays", "why_tests_cant": "the lists are regrouped by the tags of an XML tree with any number of elements, and the numbers are arbitrary", "anchors": ["mt_metadata/transfer_functions/io/emtfxml/metadata/site_layout.py::SiteLayout", "mt_metadata/transfer_functions/io/emtfxml/metadata/magnetic.py::Magnetic.to_xml", "mt_metadata/transfer_functions/io/emtfxml/metadata/electric.py::Electric.to_xml", "mt_metadata/transfer_functions/io/emtfxml/emtfxml.py::EMTFXML._update_site_layout", "mt_metadata/transfer_functions/io/emtfxml/metadata/helpers.py::_remove_null_values"]}
{"id": "C103", "title": "The lists of estimates and data types of an EMTF XML file", "statement": "A written EMTF XML file lists the kinds of estimates (VAR, INVSIGCOV, RESIDCOV, in this order) for which the array of the impedance has a value other than zero, or, if there is no such array, that of the tipper; and the data types Z and T whose array has a value other than zero. If there is at least one, reading gives the same names. If there is none, the file is written with an empty element and reading it raises TypeError. The errors of a tipper are not told if the array of the impedance is there and zero.", "quantifier": "all data: every array absent, empty or with any values; all files with this element and others", "why_tests_cant": "all combinations of present, absent, empty and zero arrays of any size, and any other elements in the file", "anchors": ["mt_metadata/transfer_functions/io/emtfxml/emtfxml.py::EMTFXML._get_statistical_estimates", "mt_metadata/transfer_functions/io/emtfxml/emtfxml.py::EMTFXML._get_data_types", "mt_metadata/transfer_functions/io/emtfxml/metadata/statistical_estimates.py::StatisticalEstimates", "mt_metadata/transfer_functions/io/emtfxml/metadata/data_types.py::DataTypes"]}
{"id": "C104", "title": "Texts in an EMTF XML file", "statement": "A text written into an EMTF XML file and read again has lost the white space around it, and in it & has become andamp; , < andlt; , > andgt; and a double quote andquot; (the reader replaces & by and before it parses the file). So a text comes back as it was exactly if it has no white space around it and none of the four characters; a second cycle changes nothing, but different texts may become the same. A text that stands for nothing (None, null and others) is written as nothing.", "quantifier": "all texts of printable ASCII characters, blanks, tabs and line feeds", "why_tests_cant": "the claim is about every text", "anchors": ["mt_metadata/transfer_functions/io/emtfxml/emtfxml.py::EMTFXML.read", "mt_metadata/base/helpers.py::element_to_string", "mt_metadata/transfer_functions/io/emtfxml/metadata/helpers.py::_remove_null_values"]}
{"id": "C105", "title": "The data section of an EDI file comes back", "statement": "The data section of an EDI file that is written and read among any other blocks comes back: the number of frequencies, of channels and of blocks exactly, the station id with its blanks as underscores, and the id of every channel (a whole number without leading zeros or sign, an id '0' not at all); the list of channel ids holds exactly the ids that came back, the data begin at the next block of the file, and a second cycle changes nothing unless an id is a zero. In the file every channel with an id other than '0' has one line, the station's channels before the remote ones, each group sorted by the text of the id. A section that lists its ids after '//' on lines of more than ten characters gives these ids in order. Matching with the measurements gives a channel the number of its measurement exactly if one of the listed ids names that number, and changes nothing else. A section written for spectra is never found again.", "quantifier": "every data section whose texts have nothing to strip and no '>', '=' or quotation mark, every text before the section without another data section and every block after it; every list of words; every list of ids and every set of measurements with distinct channel types", "why_tests_cant": "the ids, names, other blocks and lists are unbounded", "anchors": ["mt_metadata/transfer_functions/io/edi/metadata/data_section.py::DataSection.get_data", "mt_metadata/transfer_functions/io/edi/metadata/data_section.py::DataSection.read_data", "mt_metadata/transfer_functions/io/edi/metadata/data_section.py::DataSection.write_data", "mt_metadata/transfer_functions/io/edi/metadata/data_section.py::DataSection.match_channels", "mt_metadata/transfer_functions/io/edi/edi.py::EDI.read"]}
{"id": "C106", "title": "The fields of a class do not depend on the cache", "statement": "Asked for the fields of a metadata class, in any process and at any time, the library answers the tree of the fields that class has now: an entry per field that is not deprecated, its summary or the tree of the class it holds. It does so whatever was asked before, whether caches were cleared or the process started anew, whether files of the cache are missing, cut short by a crash or a full disk, or being written by another process at that moment, and whether the disk cache is switched off. An exception while a tree is built does no harm to later questions.", "quantifier": "every set of classes, every history of questions, clearings, new processes and crashes, every interference of other processes with the files at every step, every outcome of every write, every exception at every step", "why_tests_cant": "A test asks a few classes in one process with an intact cache; schedules, crash points and partial files are unbounded, and the harm of a bad cache file shows in another process, later.", "anchors": ["mt_metadata/base/pydantic_helpers.py::get_all_fields_serializable", "mt_metadata/base/pydantic_helpers.py::_compute_fields_tree", "mt_metadata/base/pydantic_helpers.py::_load_fields_from_disk", "mt_metadata/base/pydantic_helpers.py::_save_fields_to_disk", "mt_metadata/base/pydantic_helpers.py::_model_fingerprint", "mt_metadata/base/pydantic_helpers.py::clear_field_caches"]}
{"id": "C107", "title": "The dotted names of the fields are exactly those of the simple fields", "statement": "The dictionary of all fields of a metadata object has one entry for every simple field of its class and of the classes its fields hold, at any depth, under the names joined by dots and with the field's summary, and no other; deprecated fields and what is below them are left out; no two fields share a dotted name.", "quantifier": "every set of classes with non-empty field names without dots, every depth", "why_tests_cant": "A test compares the names of a few classes; a clash or an omission depends on the shape of the tree.", "anchors": ["mt_metadata/base/pydantic_helpers.py::flatten_field_tree_map", "mt_metadata/base/metadata.py::MetadataBase.get_all_fields"]}
{"id": "C108", "title": "Metadata written as JSON is read back as the same dictionary", "statement": "The JSON text of a metadata object, with any indent of blanks, is read back as the dictionary it was made from (numpy numbers as numbers, arrays as lists), given as a text or as the path of a file that holds it; it consists of printable ASCII characters and newlines. A path given as a text is read as the file it names; a path that names no file is reported as such; every value a metadata object can hold can be written.", "quantifier": "every dictionary of nested values, every text with any characters in it, every indent, every state of the file system", "why_tests_cant": "A test round-trips a few objects; texts with quotes, control characters or characters beyond ASCII, nested empty lists and special floats are combinations without end.", "anchors": ["mt_metadata/base/metadata.py::MetadataBase.to_json", "mt_metadata/base/metadata.py::MetadataBase.from_json", "mt_metadata/base/helpers.py::NumpyEncoder"]}
{"id": "C109", "title": "The runs of a station come back from an EMTF XML object", "statement": "Put a station's metadata into an EMTF XML object and take it out again. Each run with a sample rate comes back with its name, its logger's id, maker and type, its rate, period, remark (author, value, errors), its magnetic channels with sensor and position, and its electric channels with length, electrodes and positions, where the position and the orientation of a channel are those of the last run that has the channel. If a run lacks a channel another run has, taking the metadata out raises AttributeError. Writing and reading a second time changes nothing more. A station without runs comes back with one run named after it.", "quantifier": "every list of runs with distinct names whose electrodes have a number and a type and whose remarks are made of labelled parts; every number of runs and channels", "why_tests_cant": "A test round-trips one or two stations; the layout is shared by all runs, so what comes back depends on every combination of runs, channels and remarks.", "anchors": ["mt_metadata/transfer_functions/io/emtfxml/emtfxml.py::EMTFXML.station_metadata", "mt_metadata/transfer_functions/io/emtfxml/metadata/run.py::Run", "mt_metadata/transfer_functions/io/emtfxml/metadata/dipole.py::Dipole", "mt_metadata/transfer_functions/io/emtfxml/metadata/electrode.py::Electrode", "mt_metadata/timeseries/run.py::Run.get_channel"]}
{"id": "C110", "title": "The comments of stations and surveys carry what an EMTF XML object has no other place for", "statement": "The comment of the station metadata taken from an EMTF XML object, put into another one, brings over the description, the primary file name, the attachment, and the remarks, authors and flag on data quality; the comment of the survey brings over the copyright. What is given replaces what is there, everything else stays as it is, and a second trip yields the same comment. A comment that mentions neither field notes nor a data logger is always accepted. A comment without labels is kept as the comment of the site.", "quantifier": "every object whose texts have no semicolon, bar or outer blanks and do not mix newlines with equals signs; every target object; every free text", "why_tests_cant": "A test checks a few labels; which label, semicolon, colon or newline breaks the text apart depends on every combination of the texts.", "anchors": ["mt_metadata/transfer_functions/io/emtfxml/emtfxml.py::EMTFXML._parse_comments", "mt_metadata/transfer_functions/io/emtfxml/emtfxml.py::EMTFXML._parse_comments_data_logger", "mt_metadata/transfer_functions/io/emtfxml/emtfxml.py::EMTFXML._parse_comments_data_quality", "mt_metadata/transfer_functions/io/emtfxml/emtfxml.py::EMTFXML._parse_comments_electric", "mt_metadata/transfer_functions/io/emtfxml/emtfxml.py::EMTFXML._parse_comments_magnetic", "mt_metadata/transfer_functions/io/emtfxml/emtfxml.py::EMTFXML._parse_comments_processing", "mt_metadata/transfer_functions/io/emtfxml/emtfxml.py::EMTFXML.station_metadata", "mt_metadata/transfer_functions/io/emtfxml/emtfxml.py::EMTFXML.survey_metadata"]}
{"id": "C111", "title": "The runs, the remote reference and the remote site of a station through an EMTF XML object", "statement": "Put a station's metadata into an EMTF XML object and take it out again. The processed runs come back as they were. Exactly one remote reference comes back: the last valid id that the processing parameters give to the remote site, or the id the object had, whatever references the station had. Taken from one object and put into another, the parameters bring over the remote site's id, name, survey, project, country and operator, save words for nothing; they never bring over its coordinates. A list of runs written with blanks between the names is read as it was.", "quantifier": "every station with any runs, references and parameters; every state of the object, its field notes included; every list of run names without blanks, commas and brackets", "why_tests_cant": "A test checks a station or two; which parameter wins, and what a text with signs and blanks is read as, depends on every sequence of parameters.", "anchors": ["mt_metadata/transfer_functions/io/emtfxml/emtfxml.py::EMTFXML.station_metadata", "mt_metadata/transfer_functions/io/emtfxml/metadata/site.py::Site.validate_run_list", "mt_metadata/transfer_functions/io/emtfxml/metadata/site.py::Site.validate_string_fields", "mt_metadata/transfer_functions/io/emtfxml/metadata/processing_info.py::ProcessingInfo", "mt_metadata/transfer_functions/tf/transfer_function.py::TransferFunction"]}
{"id": "C112", "title": "A survey written as a StationXML network comes back, with an identifier that grows", "statement": "Write a survey as a StationXML network and read it. The id, the network code, the summary, the project lead, the countries, the place, the project, the acquirer and the acquirer's comment come back as they were. The name becomes the id and the comment of the survey is gone. The DOI gets one more 'https://doi.org/' in front on every trip, so that after n trips it has n more, and a survey without a DOI gets one that ends in 'None'; as soon as the DOI is too long for a URL the network cannot be read. The network code given to the writer has no effect. A lead is written only with an organization, and a lead with a name and an organization needs an e-mail address. A survey with the DOI of a journal, or with neither id nor network code, is written but cannot be read.", "quantifier": "every survey whose commented texts have no colon, whose countries have no comma or outer blanks and whose acquirer's comment has no bar; every DOI made of plain path characters; every number of trips", "why_tests_cant": "A test makes one trip with one survey; what is lost or repeated over many trips, and which texts are taken for dictionaries, depends on every text.", "anchors": ["mt_metadata/timeseries/stationxml/xml_network_mt_survey.py::XMLNetworkMTSurvey.xml_to_mt", "mt_metadata/timeseries/stationxml/xml_network_mt_survey.py::XMLNetworkMTSurvey.mt_to_xml", "mt_metadata/timeseries/stationxml/utils.py::BaseTranslator.make_mt_comments", "mt_metadata/timeseries/stationxml/utils.py::BaseTranslator.read_xml_identifier", "mt_metadata/utils/validators.py::validate_doi"]}
{"id": "C113", "title": "A transfer function always has a station, and what its setters do to stations and runs is determined", "statement": "A transfer function has a station whatever surveys, stations, names and runs were assigned to it. A new one that is given a survey has exactly the survey's stations, in their order; one that has a station of its own keeps it and gets the survey's stations behind it. A station that is given becomes the only station; the ids of its runs become the id of the run the transfer function had (unless that is the run of a new one) followed by the ids of the runs it has, provided each of its runs sits under its own id, and giving it again changes nothing of that. Hence the id of the run of a transfer function, once it has one, never changes, however many stations and names it is given. The stations are shared: the object given is changed, and a name given to one transfer function is seen by all that hold the station. A new name does not become the station's key. A survey whose first station has no run makes every later station a KeyError, one made of dictionaries leaves a transfer function without id, and no run can be assigned.", "quantifier": "every heap of stations and runs, every sequence of assignments of surveys, stations, names and runs, every transfer function", "why_tests_cant": "A test assigns one survey or station to a new object; what is left of earlier assignments depends on every sequence of them and on which objects are shared.", "anchors": ["mt_metadata/transfer_functions/core.py::TF.survey_metadata", "mt_metadata/transfer_functions/core.py::TF.station_metadata", "mt_metadata/transfer_functions/core.py::TF.run_metadata", "mt_metadata/transfer_functions/core.py::TF.station", "mt_metadata/transfer_functions/core.py::TF.tf_id", "mt_metadata/transfer_functions/core.py::TF._initialize_metadata", "mt_metadata/timeseries/survey.py::Survey.add_station", "mt_metadata/common/list_dict.py::ListDict.update_keys", "mt_metadata/timeseries/station.py::Station.validate_runs"]}
{"id": "C114", "title": "An experiment that is written to XML is read with all it has, but for filters alone in their class, FIR filters and empty stations", "statement": "Write an experiment to XML with its required fields and read it. Every survey comes back with its fields (as XML carries them), all its stations and runs in their order with all their channels class by class, and its filters class by class under their names in small letters, the last of those whose names differ in case only, provided it has a station, every station has a run, and no class has exactly one filter. With exactly one filter of a class reading raises AttributeError; without a station, or with a station without a run, KeyError; written with all fields (required=False) it raises TypeError, or KeyError if it has filters. FIR filters never come back: they are written as f_i_r_filter and looked for as fir_filter.", "quantifier": "every experiment: every number of surveys, filters, stations, runs and channels and every set of fields that XML carries", "why_tests_cant": "The test files have at least two filters of each class they have and no FIR filter; which experiments can be read depends on the counts of filters, stations and runs.", "anchors": ["mt_metadata/timeseries/experiment.py::Experiment.to_xml", "mt_metadata/timeseries/experiment.py::Experiment.from_xml", "mt_metadata/timeseries/experiment.py::Experiment._read_filter_dict", "mt_metadata/timeseries/experiment.py::Experiment._pop_dictionary", "mt_metadata/base/metadata.py::DotNotationBaseModel.update_attribute", "mt_metadata/utils/validators.py::validate_name"]}
{"id": "C115", "title": "An experiment that is written as a dictionary is read as it was, but for frequency tables, and the filters of a survey have keys that depend on how they are given", "statement": "Write an experiment as a dictionary and read it. Every survey comes back with its fields, its stations, runs and channels in their order with their classes and fields, and its filters under their names as they are, the last of those with one name, provided no filter is a frequency table. A survey whose first filter is a frequency table raises UnboundLocalError, one with a frequency table further on TypeError. A list of filters is accepted exactly if each item is a filter or a dictionary whose type is, in any case, zpk, coefficient, time delay, fir or frequency response table; a dictionary of filters exactly if all its values are filters. Filters in a list get their names as keys, those in a dictionary their keys in small letters, so that after survey.filters = survey.filters no key has a capital letter.", "quantifier": "every experiment: every number of surveys, filters, stations, runs and channels, every set of fields; every list and every dictionary given as filters", "why_tests_cant": "The tests' experiments have no frequency tables in dictionaries and names in small letters; which filters survive depends on every order of types and every pair of names.", "anchors": ["mt_metadata/timeseries/experiment.py::Experiment.to_dict", "mt_metadata/timeseries/experiment.py::Experiment.from_dict", "mt_metadata/timeseries/experiment.py::Experiment.sort", "mt_metadata/timeseries/survey.py::Survey.validate_filters", "mt_metadata/timeseries/survey.py::Survey.validate_stations", "mt_metadata/timeseries/station.py::Station.validate_runs", "mt_metadata/timeseries/run.py::Run.validate_channels"]}
{"id": "C116", "title": "A channel given by its name or as a dictionary gets a class that its first letter or its type says", "statement": "Give a run a channel by its name. It is electric if the name begins with e, magnetic if it begins with h or b or is 'magnetic', auxiliary otherwise, in any case, if the name may be a component of that class, and refused with ValueError otherwise. What a channel writes of itself is read as a channel of its class. A dictionary without a type is refused, and the list it is in raises TypeError. Boundaries: a dictionary whose type is None and whose component begins with h is an auxiliary channel; any type that begins with b or e makes a magnetic or electric channel, so that a battery is refused unless its component is one of a magnetic channel; a magnetic channel may be called r..., while that name alone gives an auxiliary channel.", "quantifier": "every name, every dictionary of fields, every list of channels", "why_tests_cant": "A test tries ex, hy and temperature; the class depends on every first letter of every name and type.", "anchors": ["mt_metadata/timeseries/run.py::Run._get_correct_channel_type", "mt_metadata/timeseries/run.py::Run.validate_channels", "mt_metadata/timeseries/run.py::Run.add_channel", "mt_metadata/timeseries/electric.py::Electric", "mt_metadata/timeseries/magnetic.py::Magnetic", "mt_metadata/timeseries/channel.py::Channel.validate_component"]}
{"id": "C117", "title": "A channel takes filters of all old formats out of a dictionary, and changes none of those it has", "statement": "Give a channel a dictionary with filters in the oldest format, the next format, or the current one. Names and flags of an old format, as lists or as texts with commas or brackets, become filters in their order with the stages that come next; the first of each name counts, and a name the channel has keeps its filter. The oldest format is taken first, then the next, then the list of filters. Unless the filters are given as a text, no filter the channel had is lost or changed, so a flag in a dictionary never updates the one there is. What a channel writes is read back by a new channel and changes nothing in the same. Different numbers of names and flags raise an error; one entry without the other adds nothing. Boundaries: a text as filters replaces everything, the older formats of the same dictionary too, and may hold a name twice; a blank text raises; None alone is a flag and means not applied, but not in a list or in brackets.", "quantifier": "every list of filters of a channel, every number of names and flags, every way to give them, every combination of the three formats", "why_tests_cant": "A test reads one dictionary of each format into an empty channel; what happens depends on the filters that are there and on every combination of formats.", "anchors": ["mt_metadata/timeseries/channel.py::Channel.from_dict", "mt_metadata/timeseries/channel.py::Channel.parse_filters_string", "mt_metadata/timeseries/channel.py::Channel._validate_filtered_applied", "mt_metadata/timeseries/channel.py::Channel._validate_filtered_name", "mt_metadata/timeseries/channel.py::_applied_values_map"]}
{"id": "C118", "title": "The notes of an EDI object keep the metadata of the station and of the survey", "statement": "Setting the station metadata of an EDI object writes its transfer function, provenance, runs and channels as notes, and reading the station metadata gives them back: processing parameters \"name=value\" whose names are in small letters without dots, remote references, every other given field of the transfer function and of the provenance, each with its value and in order; and every given field of the survey but its corners and times, once. The notes of the station do not change what the survey reads.", "quantifier": "all stations, with any number of fields, parameters, runs and channels, on top of any notes that say nothing about a station; all surveys", "why_tests_cant": "Whether a note is taken for what it is depends on its name containing words (provenance, transfer_function, emtf, ...) anywhere, so any of the unbounded names of runs, parameters and fields can go wrong; a test fixes the names.", "anchors": ["mt_metadata/transfer_functions/io/edi/edi.py::EDI.station_metadata", "mt_metadata/transfer_functions/io/edi/edi.py::EDI.survey_metadata"]}
{"id": "C119", "title": "A station with its runs comes back from StationXML", "statement": "A station written as a StationXML station and read again has its id in capital letters, as its own id and as its FDSN id, and its name, comment, place and notes (data type, declination, orientation, software), where an empty note becomes the default of a new station; its runs come back in order with their ids, times and values; who acquired a run and made its metadata and a comment of the form \"key: value, ...\" come back if the run's id has no capital letters; the times of the station become the earliest and the latest known of the station and its runs; who acquired the station is lost. A second trip changes nothing more.", "quantifier": "all stations with any number of runs, whose ids are letters, digits and underscores, distinct whatever the case, whose notes have no colon, and whose runs have at least one data-logger value without colons and commas", "why_tests_cant": "The reader goes twice over the equipments with different code for the first run, and finds runs, notes and persons by parsing texts; whether they end on the right run depends on all the ids together, whose number is not bounded.", "anchors": ["mt_metadata/timeseries/stationxml/xml_station_mt_station.py::XMLStationMTStation.xml_to_mt", "mt_metadata/timeseries/stationxml/xml_station_mt_station.py::XMLStationMTStation.mt_to_xml", "mt_metadata/timeseries/stationxml/xml_station_mt_station.py::XMLStationMTStation._equipments_to_runs", "mt_metadata/timeseries/stationxml/xml_station_mt_station.py::XMLStationMTStation._add_run_comments", "mt_metadata/timeseries/station.py::Station.add_run", "mt_metadata/timeseries/station.py::Station.update_time_period"]}
{"id": "C120", "title": "A channel comes back from StationXML", "statement": "An electric channel written as a StationXML channel and read again has its name, rate, times, listed runs, dipole length, the ids of both electrodes, and its azimuth and tilt as angles from 0 to 360; both electrodes get the place, manufacturer and model of the positive one. A magnetic channel whose sensor is a magnetometer, induction coil or coil has all these but the electrodes, and its sensor, whose model becomes the first word of the model and the name; so the sensor is unchanged exactly if its model was that already. A second trip changes nothing more. A channel that ends before it starts ends in 2200. The units are the longer of name and description of those of the last stage.", "quantifier": "all electric and magnetic channels whose names end in x, y or z, with any number of runs, trimmed electrode ids without colon and comma, any angles, rates, places and decimal dipole lengths", "why_tests_cant": "Which sensor types, models, names and components survive depends on texts that are split, compared and glued; a test fixes a few of them.", "anchors": ["mt_metadata/timeseries/stationxml/xml_channel_mt_channel.py::XMLChannelMTChannel.xml_to_mt", "mt_metadata/timeseries/stationxml/xml_channel_mt_channel.py::XMLChannelMTChannel.mt_to_xml", "mt_metadata/timeseries/stationxml/xml_channel_mt_channel.py::XMLChannelMTChannel._sensor_to_mt", "mt_metadata/timeseries/stationxml/xml_channel_mt_channel.py::XMLChannelMTChannel._mt_to_sensor", "mt_metadata/timeseries/stationxml/xml_channel_mt_channel.py::XMLChannelMTChannel._deduce_sensor_type", "mt_metadata/timeseries/stationxml/xml_channel_mt_channel.py::XMLChannelMTChannel._get_mt_units", "mt_metadata/timeseries/channel.py::ChannelBase.validate_type"]}
{"id": "C121", "title": "A directory of XML files is sorted into its stations, runs and channels", "statement": "Every XML file of the directory is exactly one of filters, survey, station, run and channel, as told by its name. Sorting succeeds exactly if there are a survey, filters and a file for every station asked for; it lists the stations asked for in that order, or all of the directory; under each station all its run files, once each and in the order of their names; under each run only channel files of that station and run, and all of them, once each in the order hx, hy, hz, ex, ey, if they are named station.run.kind.component.", "quantifier": "all directories with any number of files in any order, all lists of stations asked for; for the last part runs whose name and whose files' kinds do not contain hx, hy, hz, ex or ey and that have at most one file of each component", "why_tests_cant": "Files are found by searching for texts inside names; which other files in the directory a name collides with cannot be enumerated by tests.", "anchors": ["mt_metadata/timeseries/tools/from_many_mt_files.py::MT2StationXML.make_df", "mt_metadata/timeseries/tools/from_many_mt_files.py::MT2StationXML.sort_by_station", "mt_metadata/timeseries/tools/from_many_mt_files.py::MT2StationXML._get_channels", "mt_metadata/timeseries/tools/from_many_mt_files.py::MT2StationXML._get_runs"]}
{"id": "C122", "title": "The channels an EDI object reports are those of the station it was given", "statement": "After a station is given to an EDI object, its ex and ey metadata have the positions of the electrodes, every given field of the channel that is written in a note, and, where not given, the dipole length and azimuth of those positions, the number and the id; its hx, hy, hz, rrhx and rrhy metadata have the translated azimuth (0 if none), location, component, number without its sign, id as a number and all fields of the sensor but its type, and nothing else. The measurement has the translated azimuth or, if that is 0, the azimuth of the positions.", "quantifier": "all stations with any number of runs and channels in which only one channel has the component, names without dots, no part of another name that ends like the component, and any earlier notes not about it; positions are any real numbers", "why_tests_cant": "Notes are found by searching for the component inside keys, the last one wins, and angles come from all four quadrants; tests fix a handful of names and positions.", "anchors": ["mt_metadata/transfer_functions/io/edi/edi.py::EDI._get_electric_metadata", "mt_metadata/transfer_functions/io/edi/edi.py::EDI._get_magnetic_metadata", "mt_metadata/transfer_functions/io/edi/edi.py::EDI.station_metadata", "mt_metadata/transfer_functions/io/edi/metadata/define_measurement.py::DefineMeasurement.from_metadata", "mt_metadata/transfer_functions/io/edi/metadata/emeasurement.py::EMeasurement.azimuth", "mt_metadata/transfer_functions/io/edi/metadata/emeasurement.py::EMeasurement.update_azimuth_from_coords"]}
{"id": "C123", "title": "The INFO section of a Phoenix file is read entry by entry, in one or two columns", "statement": "A section with a line about run information is read line by line. A line whose two sides are four or more blanks apart, that gap being the widest of the line, with a separator on each side and four words altogether, is two columns; a line without such a gap is one. A column is a key and a value; the value is cut at its first blank if it has two blanks in a row. A known key is written under its standard name, a resistance without its unit, a voltage as the number of each of its parts, a sensor with its maker and type, every other key as phoenix_attribute; the last value written under a name is found there and nothing else is in the dictionary.", "quantifier": "all files with any lines before and after the section, any number of rows in one or two columns, keys and values of any length; voltages with at most one = in each part; resistances with a value", "why_tests_cant": "Columns are guessed from runs of blanks, so any width of any entry matters; tests read one file.", "anchors": ["mt_metadata/transfer_functions/io/edi/metadata/information.py::Information._parse_phoenix_info", "mt_metadata/transfer_functions/io/edi/metadata/information.py::Information._split_phoenix_columns", "mt_metadata/transfer_functions/io/edi/metadata/information.py::Information._apply_phoenix_translation", "mt_metadata/transfer_functions/io/edi/metadata/information.py::Information.read_info"]}
{"id": "C124", "title": "An Empower INFO section puts each entry under the block and channel it stands in", "statement": "Reading the INFO section of an EDI file written by Empower, for any sequence of blocks (general, stations, editing workbench, ELECTRICS, MAGNETICS, REFERENCE), channels and entries, gives a dictionary with one value per key. It holds, for every key, the last value written under the standard name of an entry in its place, or all remarks of a channel joined by commas in the order of the file, and nothing else. Entries of a channel go to that channel of the run, or of the remote reference inside REFERENCE; entries about the recording, instrument, station and operator go to the run and the station. Numbers of at least two characters lose the unit in brackets that follows them. Known boundaries: a new block keeps the channel of the block before it until a channel is named; the recording id of the reference replaces that of the run; a one character number keeps its unit; the voltages of a magnetic channel become remarks, and the letters 'ac' or 'dc' inside another of its keys are replaced; keys such as PROJECT are not renamed.", "quantifier": "all INFO sections of Empower files: any lines around the section, any order and number of blocks, channels and entries, any values", "why_tests_cant": "The place of an entry depends on every heading before it; a test reads one file in the order the vendor writes it.", "anchors": ["mt_metadata/transfer_functions/io/edi/metadata/information.py::Information._parse_empower_info", "mt_metadata/transfer_functions/io/edi/metadata/information.py::Information._get_empower_std_key", "mt_metadata/transfer_functions/io/edi/metadata/information.py::Information.read_info"]}
{"id": "C125", "title": "The coherence of Fourier coefficients is between 0 and 1 and blind to instrument responses", "statement": "FCCoherence.compute of two arrays of the same shape (windows by frequencies) gives one value per frequency, each between 0 and 1: the squared modulus of the sum over the windows of a times the conjugate of b, divided by the powers of a and b. It is 1 exactly where a has a coefficient and b is a nonzero multiple of a in every window, and 0 exactly where that sum vanishes, which includes channels without coefficients and arrays without windows. Swapping the channels, reordering the windows of both, and multiplying each frequency of either channel by a nonzero response leaves the result unchanged. Boundary: minimum_fcs is not used; a single window is fully coherent whatever the minimum.", "quantifier": "all pairs of arrays of complex numbers of any number of windows and frequencies (reals for floats), all responses, all orders of the windows", "why_tests_cant": "The bounds are the Cauchy-Schwarz inequality for every number of windows; tests use a few random arrays.", "anchors": ["mt_metadata/features/fc_coherence.py::FCCoherence.compute", "mt_metadata/features/fc_coherence.py::FCCoherence.minimum_fcs"]}
{"id": "C126", "title": "Striding windows are exactly the windows inside the series, with or without workers", "statement": "StridingWindowCoherence.compute of two series with a window whose overlap is smaller than its number of samples gives one row per window that lies inside the first series, in their order: row i is the coherence of samples i*step to i*step+length of both. If a window fails, the error is that of the first one that fails. With parallel=True the result is the same whatever the order in which the workers finish, provided the frequencies only depend on the numbers of samples. set_subwindow_from_window(q) with 0 <= q <= 1 gives the largest number of samples not above q times that of the window, and half of it, rounded down, as overlap. Boundaries: a series shorter than a window raises UnboundLocalError, or IndexError with workers; an overlap of the whole window raises ValueError; with a larger overlap a short series is taken as a window; a window of fewer than five samples has an empty subwindow.", "quantifier": "all series (the second at least as long as the first), windows, strides, orders in which workers finish, and coherence functions that may fail", "why_tests_cant": "The number of windows and their borders depend on three numbers, and workers finish in any order; tests use one size and cannot enumerate schedules.", "anchors": ["mt_metadata/features/striding_window_coherence.py::StridingWindowCoherence.compute", "mt_metadata/features/striding_window_coherence.py::_process_coherence_segment", "mt_metadata/features/striding_window_coherence.py::StridingWindowCoherence.set_subwindow_from_window", "mt_metadata/processing/window.py::Window.num_samples_advance"]}
{"id": "C127", "title": "The stations of a coherence feature are resolved to the local or the remote one", "statement": "After Coherence.validate_station_ids(local, remote) each channel keeps its station if that is not empty and is the local or the remote one. Any other station, or none, is replaced: by the remote station for channels whose name starts with r or R, by the local one for the others. Channels are not changed, a second call changes nothing, and if both names are not empty each station is one of them. Boundaries: without a remote station a remote channel is left without a station and without an error; a station deduced earlier stays when the two stations swap roles; a station that contradicts the name of the channel is kept.", "quantifier": "all channels, stations, local and remote names, given or not", "why_tests_cant": "All combinations of names, prefixes and missing values matter, and calls repeat; tests check a few.", "anchors": ["mt_metadata/features/coherence.py::Coherence.validate_station_ids"]}
{"id": "C128", "title": "TF.write writes the file asked for, in the format asked for, and TF.read takes it for that format", "statement": "TF.write(fn) with a path whose extension, in any case, names a format that can be written writes exactly that file in that format, whatever other names and types are given, and makes its directory the one of the object; any other extension, or none, raises TFError, and a J file NotImplementedError, without writing. Without fn, a base name without an extension gets the file type as extension, one with an extension keeps it, and without a base name the file is named after the station; it goes to save_dir or to the directory of the object. A file type that is not one of the eight names is refused. Every file written can be read by naming its type, and is read without it exactly if its extension names its format, which is always so for files written by their full path. Boundaries: a base name with the extension of another format, or with any other dot in it, is written in the default type EDI and read as something else or not at all; save_dir moves a full path; a call that fails still changes the directory of the object; a station without a name gives the file .edi, which is not read back; types and the extension .j only count in lower case.", "quantifier": "all directories, paths, base names, extensions, file types and station names, and all earlier directories of the object", "why_tests_cant": "Four optional arguments and the state of the object interact with every possible dot and slash in a name; tests write two or three names.", "anchors": ["mt_metadata/transfer_functions/core.py::TF.write", "mt_metadata/transfer_functions/core.py::TF.read", "mt_metadata/transfer_functions/core.py::TF.fn", "mt_metadata/transfer_functions/io/zfiles/zmm.py::ZMM.fn", "mt_metadata/transfer_functions/io/jfiles/jfile.py::JFile.fn"]}
{"id": "C129", "title": "A text given for an array becomes exactly the numbers in it, in their order", "statement": "A text given for poles, zeros, frequencies, amplitudes or phases that holds numbers written as usual (sign, digits, point with digits, exponent), separated by anything without digits that contains a character no number contains, with blanks or such characters around them, becomes the array of what float makes of each, in their order and without others. A text without digits gives an empty array if it is empty, none or None, the value of float if it is nan or inf, and is refused otherwise. Lists keep their elements; a complex number is refused in an array of floats. Boundaries: a complex number in a text becomes two real ones, also for poles and zeros; nan and inf are dropped from a text with other numbers and the rest moves up; a number such as 5.e3 is read as two unless it stands alone; digits in names count.", "quantifier": "all texts, with any number of numbers of any length and any separators; all lists; both types of arrays", "why_tests_cant": "A regular expression with four optional parts decides where each number ends, depending on what follows it; tests try a few texts.", "anchors": ["mt_metadata/base/helpers.py::object_to_array", "mt_metadata/base/helpers.py::extract_numbers", "mt_metadata/base/helpers.py::has_numbers", "mt_metadata/base/helpers.py::is_numeric_string", "mt_metadata/timeseries/filters/pole_zero_filter.py::PoleZeroFilter.validate_input_arrays"]}
{"id": "C130", "title": "A comment read from a dictionary is what the dictionary says, and comes back from XML with author and text", "statement": "Comment.from_dict of a dictionary with at least two keys, or of a dictionary under one key, leaves exactly the time, author and text of the dictionary (None or the default time for keys it does not have), whatever the comment was before and whatever else is in the dictionary; it is refused if one of them has no meaning. A text, or a text under one key, replaces the text alone. Comment.read_dict takes each of value, author and date that is there and keeps the others. A comment written with to_xml and read back has the same author and the same text without white space around it. After all of them the text holds no '|'. Beyond that: a dictionary with author alone becomes the text of the comment; a list alone is ignored; the time is not written to XML; to_xml changes a comment without author; an empty <Comments/> element is refused.", "quantifier": "all dictionaries, all comments, all readers of times", "why_tests_cant": "tests use a few dictionaries; which keys are there and what the comment held before combine without bound", "anchors": ["mt_metadata/common/comment.py::Comment.from_dict", "mt_metadata/common/comment.py::Comment.read_dict", "mt_metadata/common/comment.py::Comment.to_xml"]}
{"id": "C131", "title": "Transfer functions are equal exactly when their metadata and their data are", "statement": "For TF objects whose channel names are those of their data, a == b is True exactly if the metadata of station and survey are equal and either both have a transfer function with the same channel names, the same periods and the same values (nan counts as equal to nan), or neither has one; a != b is the opposite; the comparison is reflexive, symmetric and transitive if those of metadata and numbers are. Beyond that: errors, model errors and covariances are not compared at all, objects without data are equal whatever their periods are, and a comparison with anything that is no TF raises AttributeError.", "quantifier": "all pairs (and triples) of TF objects, of any number of periods and any values, and everything they are compared with", "why_tests_cant": "unit tests compare an object with its copy; equality must be an equivalence on all objects and see every entry", "anchors": ["mt_metadata/transfer_functions/core.py::TF.__eq__", "mt_metadata/transfer_functions/core.py::TF.__ne__"]}
{"id": "C132", "title": "A collection given to a survey, station, run, experiment or FC object is held entirely or refused", "statement": "Surveys of an Experiment, stations of a Survey, runs of a Station, channels of a Run, channels of an FC Decimation and levels of an FC: a list, tuple or dictionary is accepted exactly if every entry is an object of the class or a dictionary (for channels and FC: anything) that can be made into one, and then the collection holds each name once, in the order of first occurrence, with the last object of that name; if the names differ these are all the objects in their order. The keys of a given dictionary do not matter. A collection that is given again stays as it is. Beyond that: of two objects with one name the first is lost without an error, and any text given as FC levels or channels empties the collection.", "quantifier": "all lists of entries, of any length and with any names, for all six collections", "why_tests_cant": "tests give one or two objects; which entries fail, and where, and which names coincide cannot be enumerated", "anchors": ["mt_metadata/timeseries/experiment.py::Experiment.validate_surveys", "mt_metadata/timeseries/survey.py::Survey.validate_stations", "mt_metadata/timeseries/station.py::Station.validate_runs", "mt_metadata/timeseries/run.py::Run.validate_channels", "mt_metadata/processing/fourier_coefficients/decimation.py::Decimation.validate_channels", "mt_metadata/processing/fourier_coefficients/fc.py::FC.validate_levels"]}
{"id": "C133", "title": "Reading a J file or an AVG file fills a TF with exactly that file", "statement": "Reading a J file (or J object) into a TF that is new, or that has as many periods, gives it the periods of the file, its impedance, tipper and their errors, element by element for every period, and its metadata; reading an AVG file does the same with periods one over the frequencies, the tipper only if the file has one. In a new TF everything the file does not have is zero, so the impedance that is read back is that of the file, and the tipper is None when the file has none. A used TF with another number of periods is refused. Boundaries: a refused AVG file has already replaced the metadata; in a used TF with as many periods an AVG file without tipper leaves the tipper of the former station, and both leave its covariances.", "quantifier": "all objects of both kinds (any number of periods, any values), all TFs with consistent labels, all channel nomenclatures", "why_tests_cant": "tests read a few files into new TFs; that every entry arrives, and what remains in used TFs, is about all arrays and histories", "anchors": ["mt_metadata/transfer_functions/core.py::TF.from_jfile", "mt_metadata/transfer_functions/core.py::TF.from_avg", "mt_metadata/transfer_functions/core.py::TF.period"]}
{"id": "C134", "title": "Dipoles and electrodes of field notes come back from an EMTF XML file", "statement": "A dipole of the field notes with no electrode or at least two, written to EMTF XML and read again: manufacturer (without blanks around it), length and azimuth (rounded to a thousandth, None if None), name, type and every electrode in its order, with its location and number, come back, the remark in its comments as its value; words that stand for nothing become empty. Writing and reading again changes none of the numbers, names, types, locations and numbers of electrodes. Boundaries: with exactly one electrode the file cannot be read (AttributeError); the value of an electrode is never written, so remarks are gone after the second file; names and types that are None come back as empty texts.", "quantifier": "all dipoles with any number of electrodes, any texts and rational numbers; any white space a printer puts between elements", "why_tests_cant": "The number of electrodes decides whether the reader sees a dictionary or a list; tests write two electrodes and compare once.", "anchors": ["mt_metadata/transfer_functions/io/emtfxml/metadata/dipole.py::Dipole.to_xml", "mt_metadata/transfer_functions/io/emtfxml/metadata/dipole.py::Dipole.validate_electrode", "mt_metadata/transfer_functions/io/emtfxml/metadata/electrode.py::Electrode.to_xml", "mt_metadata/transfer_functions/io/emtfxml/metadata/run.py::Run.read_dict", "mt_metadata/base/helpers.py::element_to_dict", "mt_metadata/base/metadata.py::MetadataBase.from_dict"]}
{"id": "C135", "title": "Weights given as dictionaries become the features, kernels and specifications they describe", "statement": "Calling FeatureWeightSpec, ChannelWeightSpec or DecimationLevel with weights given as dictionaries makes exactly one specification per entry, in order: the feature is the one the entry stands for, whatever number of 'feature' dictionaries is around it, of the class that its name names (the base class when it names none); objects are kept as they are; kernels come in their order, of the class that their style, or else their weight type, names, and those that cannot be made are left out; entries of any other type are refused with TypeError. This holds as long as no feature object is put inside a dictionary and no entry is written under the name of its class, as to_dict writes it.", "quantifier": "all dictionaries, all depths of wrapping, all lists of entries; any classes of features and kernels", "why_tests_cant": "The nesting and the lists are unbounded; the tests use a few literal dictionaries, and none with a specification that was written by to_dict.", "anchors": ["mt_metadata/features/weights/feature_weight_spec.py::FeatureWeightSpec.pre_process_feature", "mt_metadata/features/weights/feature_weight_spec.py::FeatureWeightSpec.validate_feature", "mt_metadata/features/weights/feature_weight_spec.py::FeatureWeightSpec.validate_weight_kernels", "mt_metadata/features/weights/channel_weight_spec.py::ChannelWeightSpec.check_feature_weight_specs", "mt_metadata/processing/aurora/decimation_level.py::DecimationLevel.validate_channel_weight_specs"]}
{"id": "C136", "title": "Names given as a text with commas, a list or an array become the list of those names", "statement": "Channels of a Run, runs and channels of a Station, countries and states of a Survey, fields of a FundingSource and channels of a StatisticalEstimate, given as a text that stands for something, become exactly the names between its commas, in order and without blanks around them; an FC keeps the blanks; two or more values of a Zonge channel, none of them missing, come one by one. A list of texts and numbers gives their texts, so a list that came out goes in again unchanged. None and the words that stand for nothing give an empty list in a Run and an FC. Indices of a BIRRP block given as non-negative numbers between commas, with or without brackets, come one by one. Boundaries: an array with two or more names raises ValueError in a Run or a Station although arrays are meant to be taken; words that stand for nothing are refused by a Station; a missing first value of a Zonge channel puts the second in its place; indices with a sign or a point are left out without a word.", "quantifier": "all texts, with any blanks around the commas; all lists of texts and numbers; all arrays of one dimension; every kind of field", "why_tests_cant": "The text and the number of names are unbounded, and tests give arrays only to an FC.", "anchors": ["mt_metadata/timeseries/run.py::Run.validate_list_of_strings", "mt_metadata/timeseries/station.py::Station.validate_list_of_strings", "mt_metadata/timeseries/survey.py::Survey.validate_areas", "mt_metadata/common/funding_source.py::FundingSource.validate_input", "mt_metadata/transfer_functions/tf/statistical_estimate.py::StatisticalEstimate.validate_channels", "mt_metadata/processing/fourier_coefficients/fc.py::FC.validate_channels_estimated", "mt_metadata/transfer_functions/io/zonge/metadata/ch.py::CH.validate_comma_separated_fields", "mt_metadata/transfer_functions/io/jfiles/metadata/birrp_block.py::BirrpBlock.validate_indices"]}
{"id": "C137", "title": "The channels of an AVG file are the sensors it describes", "statement": "When the header of an AVG object has a component zxx whose channels are named, and components zxy and zyx that give two azimuths, two inclinations and two numbers, its run has the channels ex, ey, hx, hy in this order: ex and ey with the first values and the receiver length of zxy and zyx, hx and hy with the second values of zyx and zxy, measured and translated orientation being equal. When zxx is missing or its channels are not named, ex and hx get the first angle of the array, ey and hy ninety degrees more, both electric channels the length of the header, and no orientation of the array raises IndexError; hz, present when a tipper is, gets its last angle. Without impedance and tipper there is no channel. Boundaries proved: of a single value only the first character is used; zxx without zxy raises KeyError and zxy without zxx is not used; and hz of a header with zxx never gets an angle, tilt or sensor, whatever the file says.", "quantifier": "all headers: any components, any texts of their azimuths, inclinations and numbers, any orientation of the array; all lists of component names", "why_tests_cant": "Tests replace the components by mocks whose values stay texts, which hides that the values read from a file are lists.", "anchors": ["mt_metadata/transfer_functions/io/zonge/zonge.py::ZongeMTAvg.run_metadata", "mt_metadata/transfer_functions/io/zonge/zonge.py::ZongeMTAvg.hz_metadata", "mt_metadata/transfer_functions/io/zonge/metadata/header.py::Header._has_channel"]}
{"id": "C138", "title": "Sections of an EMTF XML file come back field by field", "statement": "A section of an EMTF XML file whose fields are None, texts or lists of texts is found in the dictionary of the file under its name, with exactly the fields that are not None or empty lists, in the order in which they were written and under their own names: a text without the white space around it, or None if it says nothing; a list of texts as one text with blanks. Names of runs of a site come back as the same list. Two or more attachments come back one by one and one attachment as itself, so a new object that reads what was written writes the same. The first time an object is written, the remote site is in the file exactly if it has a name, and its field notes exactly if they are not to be skipped. Boundaries proved: lists of anything else are not written; run names with blanks, commas or brackets come back as others; reading on a used object doubles the attachments, or keeps writing those of the file before; and what was once left out of the remote site is never written again by that object.", "quantifier": "all sections with any fields and texts; all lists of run names; any number of attachments and any object that reads them; all histories of calls of write", "why_tests_cant": "The texts, the number of fields and the history of reads and writes of one object are unbounded; tests use each object once.", "anchors": ["mt_metadata/transfer_functions/io/emtfxml/metadata/helpers.py::to_xml", "mt_metadata/transfer_functions/io/emtfxml/metadata/site.py::Site.validate_run_list", "mt_metadata/transfer_functions/io/emtfxml/metadata/attachment.py::Attachment.read_dict", "mt_metadata/transfer_functions/io/emtfxml/metadata/attachment.py::Attachment.to_xml", "mt_metadata/transfer_functions/io/emtfxml/metadata/remote_info.py::RemoteInfo.to_xml", "mt_metadata/transfer_functions/io/emtfxml/emtfxml.py::EMTFXML.write"]}
{"id": "C139", "title": "Making an experiment from a directory of XML files", "statement": "MT2StationXML.make_experiment(stations) returns an experiment exactly if the directory can be sorted, the survey, station, run and filter files can be read, every filter element has one of the types zpk, coefficient, 'time delay' and fir, and no channel file belongs to a run of the wanted stations. The experiment then has one survey with the stations of the directory in order, each with the runs of its run files (those of its run_list first), and the filters by name, the last of a name winning; a channel listed by a run file that is at latitude, longitude and elevation 0 is at the place of the station, every other channel where its file puts it. Any channel file makes it fail: channels have no attribute 'filter' (AttributeError), and a channel type other than electric or magnetic is an UnboundLocalError.", "quantifier": "all directories, all contents of the files, all lists of wanted stations", "why_tests_cant": "The tests never run the class; it fails for every directory with channels, and what it makes of the others depends on the lists inside the files.", "anchors": ["mt_metadata/timeseries/tools/from_many_mt_files.py::MT2StationXML.make_experiment", "mt_metadata/timeseries/tools/from_many_mt_files.py::MT2StationXML._make_channel", "mt_metadata/timeseries/tools/from_many_mt_files.py::MT2StationXML._make_station", "mt_metadata/timeseries/tools/from_many_mt_files.py::MT2StationXML._make_filters_dict", "mt_metadata/timeseries/tools/from_many_mt_files.py::MT2StationXML.get_mt_channel"]}
{"id": "C140", "title": "Station metadata of a J file", "statement": "For a J file with a sampling parameter that is not 0 and a station name of letters, digits and underscores, station_metadata has one run '001', listed in run_list and in the runs processed, with the channels ex, ey, hx, hy numbered 1 to 4 if some impedance is not zero and hz numbered 5 if some tipper is not zero; the sample rate is the magnitude of a negative parameter and the inverse of a positive one; the id, the id of the transfer function and the location are those of the header, and the processing parameters are 'key = value' in the order of the BIRRP parameters. It fails exactly otherwise: with parameter 0, which is what a file without BIRRP parameters has, it is a ZeroDivisionError.", "quantifier": "all headers, all impedance and tipper arrays, read or not", "why_tests_cant": "Tests read one BIRRP file; the zero parameter, names with a hyphen and arrays of zeros never occur in it.", "anchors": ["mt_metadata/transfer_functions/io/jfiles/jfile.py::JFile.station_metadata", "mt_metadata/timeseries/station.py::Station.validate_runs_and_channels_recorded", "mt_metadata/timeseries/run.py::Run.add_channel"]}
{"id": "C141", "title": "Channel names of transfer functions", "statement": "Setting channel_nomenclature of a TF to a dictionary with the five components gives the object those names and changes no other object and no dictionary; one without all five is a KeyError. The names of an object change only when they are set: not when its dictionary is edited, and not with anything done to other objects. As long as the dictionary of default names is not edited, every new TF has the usual names, and as long as no dictionary is edited and no setting fails, every dataset that is made is labelled with the names of its object, whatever the class has cached. The inverse nomenclature, when first asked for, takes each of distinct names back to its component. A ZMM given a dictionary keeps its entries and adds the components that are missing at the end, to the dictionary of the caller.", "quantifier": "all histories of making dictionaries, editing them, making TF and ZMM objects, setting names and periods, and asking for the inverse", "why_tests_cant": "The names, the cache of templates and the default dictionary are shared between all objects of a program, so what one object does depends on the history of all others.", "anchors": ["mt_metadata/transfer_functions/core.py::TF.channel_nomenclature", "mt_metadata/transfer_functions/core.py::TF.inverse_channel_nomenclature", "mt_metadata/transfer_functions/core.py::TF._initialize_transfer_function", "mt_metadata/transfer_functions/core.py::TF._get_template_key", "mt_metadata/transfer_functions/io/zfiles/zmm.py::ZMM.channel_nomenclature", "mt_metadata/__init__.py::DEFAULT_CHANNEL_NOMENCLATURE"]}
{"id": "C142", "title": "Experiments as JSON texts and files", "statement": "An experiment written as JSON, as a text or to a file, is read back from the text or the path as the same experiment: all surveys, stations, runs, channels and filters with all their fields in their order, whatever the indent of blanks and whatever the file held before, and no other file changes. Writing that ends early, at any character and for any reason, leaves a file that is refused and never one that is read as another experiment. A file that cannot be opened is an error that changes nothing. JSON that is no object is refused; an object without an experiment gives no surveys.", "quantifier": "all experiments without frequency tables whose fields are None, texts, booleans, numbers, lists and dictionaries, all indents, file systems, and points at which writing stops", "why_tests_cant": "The text depends on every value and character of the metadata, and a crash can come after any character.", "anchors": ["mt_metadata/timeseries/experiment.py::Experiment.to_json", "mt_metadata/timeseries/experiment.py::Experiment.from_json", "mt_metadata/timeseries/experiment.py::Experiment.to_dict", "mt_metadata/timeseries/experiment.py::Experiment.from_dict"]}
{"id": "C143", "title": "The table of bands of a decimation level", "statement": "bands_dataframe of a decimation level has one row for each band with its level plus one, its indices and its frequencies, in order of the lower index, bands without indices last. If no two bands have the same lower index the table depends neither on the sorting algorithm nor on the order in which bands were added, and if the indices are those of a frequency axis the rows are in order of frequency too. band_edges and frequency_bands_obj have the frequencies of the same rows. lower_bounds is the column of lower indices, and upper_bounds the column of upper indices if no band lies within another. The edges of FrequencyBands can be set exactly to arrays of two dimensions with two columns and to frames with both columns, whatever other columns there are; otherwise they stay as they were.", "quantifier": "all lists of bands, all orders in which equal rows may be sorted, all frequency axes, arrays and frames", "why_tests_cant": "pandas leaves the order of rows with equal keys open, and the order of rows follows from all bands together.", "anchors": ["mt_metadata/processing/aurora/decimation_level.py::_df_from_bands", "mt_metadata/processing/aurora/decimation_level.py::DecimationLevel.bands_dataframe", "mt_metadata/processing/aurora/decimation_level.py::DecimationLevel.band_edges", "mt_metadata/processing/aurora/decimation_level.py::DecimationLevel.frequency_bands_obj", "mt_metadata/processing/aurora/frequency_bands.py::FrequencyBands.band_edges"]}
{"id": "C144", "title": "Weights of a channel for a band", "statement": "get_weights_for_band gives the weights at the frequency nearest to the centre of the band, the first of them if several are equally near, along the first dimension with freq in its name. ValueError if there are no weights, no such dimension or no frequencies, and TypeError for other objects. The centre lies in the band, as far from one end as from the other, in ratio for the geometric mean and in difference for the arithmetic. On an increasing axis bands with higher centres have the same or later frequencies. With the arithmetic centre the frequency is in the band whenever the axis has one there. For plain arrays the row is the one whose number is nearest to the centre.", "quantifier": "all arrays of weights, with any dimensions and any frequency axes, sorted or not, and all bands", "why_tests_cant": "The nearest of all frequencies, and whether it is in the band, depends on the whole axis and the band together.", "anchors": ["mt_metadata/features/weights/channel_weight_spec.py::ChannelWeightSpec.get_weights_for_band", "mt_metadata/common/band.py::Band.center_frequency"]}
{"id": "C145", "title": "Times at hour 24", "statement": "A text with the hour 24 is read as so much of the next day, which is also how the text of the next day is read, over ends of months and years and leap days, if the next day is in the years 1900 to 2200. Hours 0 to 23 are read as they are. Hours from 25, and minutes and seconds from 60, are a ValueError, at hour 24 too. In the years 1900 to 2199 a text is later exactly if the time of day it shows is later, whichever of two texts has the hour 24. Words for nothing are the beginning of 1980.", "quantifier": "all days of the calendar, all hours, minutes and seconds of two digits, with and without microseconds", "why_tests_cant": "The next day depends on months, leap years and years; two parsers with different ranges work one after the other.", "anchors": ["mt_metadata/common/mttime.py::_parse_string", "mt_metadata/common/mttime.py::_fix_out_of_bounds_time_stamp", "mt_metadata/common/mttime.py::parse"]}
{"id": "C146", "title": "Copies of metadata objects", "statement": "A deep copy has the updates and for the rest what the original has, and the original stays as it was. What is set afterwards in nested objects of one is not seen in the other, and an object that two attributes share is shared in the copy. A reference to storage is None in the copy and the kind of storage that of the original. A copy that is not deep has the same nested objects. If something in the object cannot be copied deeply, the copy is what the dictionary of the object gives with those updates that are attributes of it, if the error is of the known kind, and otherwise the error is raised.", "quantifier": "all objects with any attributes and sharing of nested objects, all updates, deep and not deep, and all later settings", "why_tests_cant": "Whether two objects share something shows only in later changes through either of them.", "anchors": ["mt_metadata/base/metadata.py::MetadataBase.copy"]}
{"id": "C147", "title": "Coefficients of a window", "statement": "The first time the coefficients of a window are asked for they are those of its type with the additional arguments in their order and its number of samples, and add up to one if they are to be normalized; all settings made before count. An error is that of scipy and leaves the window to be asked again after new settings. Asking changes no setting. From then on the coefficients stay the same, whatever is set and asked.", "quantifier": "all windows, all settings in any order before and after, and whatever get_window gives", "why_tests_cant": "The coefficients depend on the history of settings and questions.", "anchors": ["mt_metadata/processing/window.py::Window.taper", "mt_metadata/processing/window.py::Window"]}
{"id": "C148", "title": "What is left after reading and writing elements of EMTF XML", "statement": "read_dict of processing information gives sections to their readers and the rest to the other attributes, and keeps what the dictionary does not have; the dictionary loses its sections and field notes and nothing else; read again into the same object nothing is lost. A written site has its start and the later of start and end, and an orthogonal layout its angle, 0 if there is none, other layouts none; written again they give the same. Writing changes a site exactly if it ends before it starts, and an orientation exactly if it is orthogonal without an angle.", "quantifier": "all dictionaries, all objects before reading, all sites and orientations", "why_tests_cant": "Whether an argument or an object is changed shows only in a later use of it, over all contents.", "anchors": ["mt_metadata/transfer_functions/io/emtfxml/metadata/processing_info.py::ProcessingInfo.read_dict", "mt_metadata/transfer_functions/io/emtfxml/metadata/site.py::Site.to_xml", "mt_metadata/transfer_functions/io/emtfxml/metadata/orientation.py::Orientation.to_xml"]}
{"id": "C149", "title": "Names of frequency bands", "statement": "A band always has a name. A name that was given stays whatever frequencies are set, except \"empty_band\". A band for which none was given is \"empty_band\" until both of its frequencies are there; from the first moment they are, its name is their arithmetic mean at that moment with six decimals, and stays. A blank name that is given becomes the mean at that moment, also of zeros, and stays. Bands made without names whose means are more than a millionth apart have different names.", "quantifier": "all frequencies, all names, and all histories of settings of frequencies and names", "why_tests_cant": "The name depends on the order in which frequencies and names were set; two validators work one after the other at every setting.", "anchors": ["mt_metadata/common/band.py::Band.validate_name", "mt_metadata/common/band.py::Band.check_name"]}
{"id": "C150", "title": "Ratings of data quality", "statement": "Whatever is set, a rating is None or an integer from 0 to 5, and what raises an error leaves it as it was. Integers from 0 to 5 are taken, also as texts with blanks around, and other integers are refused. None and the texts that stand for nothing take the rating away; texts with anything else than digits, signs and blanks are refused. Floats are cut off towards zero, so that those between -1 and 6 are taken and the others refused; nan is refused and infinite floats raise an OverflowError.", "quantifier": "all integers, finite and other floats, texts, and all histories of settings", "why_tests_cant": "The values and texts are unbounded and the bounds are looked at after the cutting off.", "anchors": ["mt_metadata/common/rating.py::Rating.validate_value", "mt_metadata/__init__.py::NULL_VALUES"]}
{"id": "C151", "title": "Normalization frequency of a filter of poles and zeros", "statement": "For two or more frequencies in order, whatever the response, the estimates min, max, mean and median are the ends and the arithmetic middle of the pass band, which goes from one of the frequencies to a higher one; one frequency is its own normalization frequency. Another estimate gives None. Without frequencies or a response it is nan with numpy before 2 and an AttributeError since. For positive frequencies the default is always above the geometric mean of the pass band.", "quantifier": "all lists of increasing frequencies, all amplitudes, window lengths, tolerances and names of estimates", "why_tests_cant": "The pass band depends on all amplitudes; the estimates are told for every response.", "anchors": ["mt_metadata/timeseries/filters/pole_zero_filter.py::PoleZeroFilter.normalization_frequency", "mt_metadata/timeseries/filters/filter_base.py::FilterBase.pass_band"]}
{"id": "C152", "title": "A processing configuration made to fit a dataset", "statement": "validate_processing replaces, if the configuration has no remote station, every engine for a remote reference by that for one station, and no other, and keeps all engines if it has one. A configuration with a local station keeps its stations; one without gets those of the dataset, behind the remote ones it has. Done again with whatever dataset it changes nothing more, once there is a local station. A dataset of remote stations only raises IndexError when there is no local station. The remote stations of the dataset do not count for the engines.", "quantifier": "all configurations with any number of levels and engines, all stations and datasets", "why_tests_cant": "The outcome depends on the order of two steps over all levels and on the whole table of the dataset.", "anchors": ["mt_metadata/processing/aurora/processing.py::Processing.validate_processing", "mt_metadata/processing/aurora/stations.py::Stations.from_dataset_dataframe"]}
{"id": "C153", "title": "Tables of the metadata standards", "statement": "summary_to_array gives the row of the version and then one row per attribute, in the order of the dictionary, which shows in each column what the standard says of it: nothing for None, lists with commas, and of a text as much as the column is wide. A standard that has no entry for a column raises KeyError. summarize_standards returns an array for 'array' and a data frame for 'dataframe' or when a file name is given; it writes the data frame it returns to the file exactly if the type is not 'array' and the name is not empty, and raises UnboundLocalError for another type without a file name and for an empty file name. The columns asked for count for arrays only.", "quantifier": "all dictionaries of standards of any size, all columns and widths, all file names and types of output", "why_tests_cant": "The cut depends on the length of every text, and the row on every column; tests look at the table of one version.", "anchors": ["mt_metadata/utils/summarize.py::summary_to_array", "mt_metadata/utils/summarize.py::summary_to_dataframe", "mt_metadata/utils/summarize.py::summarize_standards"]}
