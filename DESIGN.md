# Formal model of mt_metadata in Rocq (Coq 8.16.1)

## What is here

* `properties.jsonl` - the English properties (C01, C02, ...).
* `rocq/theories/<Area>Model.v` - executable Gallina models of the Python code, one file per
  area. Each definition cites the file and lines in `/repo` it models and says what it
  simplifies. No proofs in these files.
* `rocq/theories/<Area>Spec.v` - small specifications, written without using the model's
  helpers, that the theorems are stated against.
* `rocq/theories/<Area>Proofs.v` - lemmas.
* `rocq/theories/<Area>Props.v` - the property theorems, the `Example`s that show their
  hypotheses are met by concrete non-trivial cases, and `Print Assumptions`.
* `MANIFEST.json` - property -> status -> theorem names.
* `seeded/LOG.jsonl` - the log of deliberate bugs tried against the theorems.

## Conventions

* Shallow models: a Python function becomes a Gallina function, branch by branch. An exception
  is a value (`result` with an exception class name, see `PyBase.v`); mutation becomes a new value.
* A property that the faithful model violates is stated, refuted by a theorem with suffix
  `_refuted` (an explicit witness) and accompanied by the strongest true variant I could prove
  (suffix `_partial` when it is only part of the property). Refuted properties have status
  `partial` in the manifest, with the finding in the note.
* Python `str` is Coq `string` restricted to 8-bit characters; `str.lower`/`upper`/`strip` are
  modelled for ASCII. Python `int` is `Z` (or `nat` for lengths and positions). Floats are
  modelled by exact numbers (`Z`, `Q` or `R`), so floating-point rounding is *not* modelled
  except where it is written into the model explicitly (e.g. rounding of seconds to 4 decimals).
* Loops are structural recursion or folds; where the Python recursion is not structural the
  model takes fuel and returns an error value if it runs out, and the theorem excludes that value.

## Trusted base

* Coq 8.16.1's kernel (and `coqchk`), the standard library.
* Axioms: see the table "Print Assumptions" below. Only standard-library axioms of
  `Coq.Reals` (and what they pull in: functional extensionality, classical logic for the reals)
  appear, and only in the theorems over `R`. All other theorems are closed under the global context.
* The reading of the Python code: nothing is extracted or run; the tie between model and code
  is the citation on each definition.
* Assumed about the runtime, not proved: CPython's `OrderedDict`, `list.sort` stability, `dict`
  insertion order; pydantic's `validate_assignment` semantics (after-validators run on each
  attribute assignment to that object, not on in-place mutation of a nested list);
  numpy's elementwise semantics; pandas' time stamp bounds.

## Not modelled

* Floating-point rounding, NaN/infinity (unless named), Unicode, locale.
* pydantic's field coercion beyond the validators cited; json/xml parsers; obspy objects; xarray.
* File system access, logging, plotting, network access (`get_nm_elev`).

## Properties: model and proof plan

* **C01 ListDict behaves like an insertion-ordered map.** ListDictModel: association list for OrderedDict + one op type; refinement to (history-defined) spec map; induction over op lists.
* **C02 Integer, key and slice access to a ListDict agree.** Same model; list lemmas about nth_error / firstn / skipn and Python slice clamping.
* **C03 ListDict.sort permutes items into key order and is idempotent.** Insertion sort as model of sorted(); Permutation + StronglySorted proofs over a string order proved total.
* **C04 ListDict.pop(key) removes exactly the requested key.** Expected refuted: OrderedDict.popitem(key) pops an end item. Refutation plus exact characterisation of what pop does.
* **C05 ListDict.update_keys re-keys without losing objects.** Proved under distinct ids; refuted with colliding ids (silent loss); exact description of the survivor.
* **C06 Flattening and restructuring a nested metadata dictionary are inverse.** Rose-tree value type, mutual induction; refutations for empty sub-dicts and for a non-default separator (not forwarded in the recursion).
* **C07 Dotted-name attribute access: get returns what set stored and disturbs nothing else.** Tree model; lens laws by induction over the path.
* **C08 Attribute-name normalisation is idempotent and yields lower-case dotted snake case.** List-of-ascii model of the regex findall split; induction over the character list.
* **C09 EMTF-XML tag names convert back to the attribute they came from.** String model of str.title/replace; induction over words; refutations for digit-leading words and doubled underscores.
* **C10 GPS leap-second table is total and correct.** Dates as Z day numbers with a separate IERS list spec; interval reasoning; refuted on 2012-06-30 and 2016-12-31 (no interval contains them); proved on all other days.
* **C11 MTime comparisons form a consistent total order.** Integer-nanosecond model; __gt__ is 'not <' so trichotomy is refuted (t > t); proved part: lt strict total order, le its reflexive closure.
* **C12 Parsed times are always inside the representable range.** Z-nanosecond clamp model plus the ns/s scale detection.
* **C13 MTime arithmetic: adding then subtracting a duration is the identity, and t2 - t1 recovers the duration.** Z model.
* **C14 Unit validation is idempotent.** Table + tokenizer model; proved for single units and separator combinations that re-tokenise; refuted for digital counts per second.
* **C15 Harmonic indices set from frequencies are exactly the harmonics inside the band.** Q-valued frequencies; filter/where model; contiguity proved from monotonicity.
* **C16 Band interval predicates are consistent.** Q intervals with closure; self containment refuted for half-open bands, exact characterisation.
* **C17 Frequency band tables: sorting and lookup.** List sorting model.
* **C18 A channel response is accepted only with an unbroken unit chain.** Fold over filters; equivalence with a pairwise spec.
* **C19 Complex response is the product of the selected filters and splits over delay / non-delay filters.** Abstract commutative ring of responses (instantiated with pairs of reals); Permutation induction.
* **C20 FIR symmetry expansion produces a symmetric impulse response.** List model; EVEN proved, ODD refuted (drops the first not the centre coefficient), exact length proved.
* **C21 Channel filter list stays ordered by stage under add/remove.** Op-list induction; duplicate-free claim refuted for names that change under normalisation.
* **C22 Run.add_channel / get_channel / remove_channel keep channel lists consistent.** State machine over ListDict model.
* **C23 Run and station time periods enclose their parts.** Shared aggregate model parametrised by guard; FC variant refuted (end guarded by start).
* **C24 Station run bookkeeping: removing a run removes only that run.** State machine including the after-assignment validator; refuted (phantom channel added to the first run); proved for stations where the channel union is unchanged.
* **C25 Adding runs to a station keeps run_list and runs in step.** Op-list induction on the station state machine.
* **C26 Survey bounding box is the tight box around its stations.** Q min/max fold; permutation invariance; stale-box behaviour with no stations stated separately.
* **C27 Merging experiments is a union by survey id.** ListDict model instance; also argument mutation findings.
* **C28 MetadataBase.update copies every set value and never erases one.** Record-of-values model; refuted for False and 0 (treated as unset), proved with exact null set.
* **C29 Metadata equality is reflexive and symmetric.** Model over value trees with tolerance; symmetry refuted for objects with extra attributes and for isclose's asymmetric tolerance; reflexivity proved except NaN.
* **C30 Dictionary round trip of a metadata object.** Attribute-tree model; wrap/unwrap of the class-name key; refuted when the unwrapped dict has a single dict-valued key.
* **C31 Comment string round trip.** String split/strip model; proved for trimmed '|'-free parts; refuted when value contains '|'.
* **C32 Degrees-minutes-seconds conversion round trip.** Exact rational model (Z ten-thousandths of seconds); refuted in (-1,0) (sign lost); proved elsewhere.
* **C33 Accepted positions are within range.** Decision model over Q.
* **C34 FDSN period code covers every sample rate in the standard bands.** Table over Q with first-match; gaps/overlaps characterised exactly.
* **C35 Orientation code classification is total and direction-insensitive.** Reals model with cos; periodicity lemmas.
* **C36 FDSN channel code round trip.** Composition of C34/C35 models with table inversion; known losses refuted.
* **C37 Enumeration normalisation.** String lower model, list of members without case collisions.
* **C38 Decimation levels given to Processing are kept once each.** List model; refuted (list of objects doubled); dict/single forms proved.
* **C39 Sample rate of each decimation level is the base rate divided by the product of factors.** Q model; fc creator proved; assign_bands refuted for non-uniform factors, proved for uniform ones.
* **C40 An FC archive built from a decimation level is accepted as consistent with it.** Record model of the check list; refuted when min_num_stft_windows is non-default; proved otherwise.
* **C41 A time series is valid for a decimation level iff enough windows fit.** Z arithmetic; equivalence proved for minimum >= 1 and positive advance; refuted for 0.
* **C42 FC decimation: a channel just added is present.** State machine; refuted; FC.add_decimation_level counterpart proved.
* **C43 Dataset dataframe round trip for a processing station.** Row list model with grouping; proved for distinct run ids with nonempty periods; refuted for runs with no period; Stations accumulates remotes on repeated loads.
* **C44 Channel nomenclatures are unambiguous.** Finite maps, forallb lifted.
* **C45 Taper weight kernels are monotone weights in [0,1].** Reals model; cos monotone on [0,pi]; reversed bounds refuted.
* **C46 Activation kernels are monotone weights in [0,1].** Reals model with exp/tanh.
* **C47 Combined feature and channel weights stay in [0,1].** Fold lemmas over R.
* **C48 EDI data blocks read back the values written.** Exact text model of the scientific format (PySci) and of the file; round trip for one block and for the whole data part, and the second file equals the first; refuted for numbers that print like the empty marker, for a marker of more than seven digits and for the errors of a zero tipper.
* **C49 Impedance from EDI spectra satisfies the least-squares relation.** 2x2 matrix algebra over a field; with-tipper case proved; no-tipper case refuted (two cells overwritten).
* **C50 Reading an EDI file orders everything from high to low frequency.** List model; refuted for rotation angle and for unsorted input; proved for monotone input and tensors.
* **C51 Z-file covariance matrices are Hermitian and survive a write/read cycle.** Text-level model of the writer and reader (numbers with 4 decimals and exponent, split at the word period); induction on rows and periods; refuted for short periods, three-digit exponents and headers with the word period.
* **C52 Rotation to geographic coordinates is physically consistent.** 2x2 real matrices with cos/sin; guard refuted for anti-parallel sensors.
* **C53 J-file periods are sorted and paired with their data.** Sorted-as-strings model; refuted ('10.0' before '2.0'); pairing proved.
* **C54 StationXML comment dictionaries survive a write/read cycle.** String find/split model; proved for up to 21 separator-free pairs; refuted beyond (recursion cut-off) and for ':'/',' in values.
* **C55 Translator dictionaries flip consistently.** Assoc-list model, last-wins lemma.
* **C56 key=value lines are tokenised faithfully.** Split/strip model; refuted for empty or spaced values.
* **C57 Aggregated harmonic indices of a decimation level are the sorted union of its bands.** Sort/concat model.
* **C58 FFT harmonics of a window are all frequencies from 0 below Nyquist.** Q model of fftfreq; even n proved, odd n refuted.
* **C59 Standards dictionary container semantics.** Association-list model with the validation of each entry; csv as text lines; refutations for options, commas, defaults and missing keys.
* **C60 XML element conversion round trip.** Tree model; mutual induction; refutations for singleton lists and empty dicts.
* **C61 Constructor keywords, flat and dotted, all reach the object.** Nested-dict model; refuted when a dotted keyword and a dict keyword share a root; proved otherwise.
* **C62 Validated station names are safe identifiers.** Character-list model; per-character case analysis lifted over all strings.
* **C63 Schema-field validators normalise to a fixed point.** Character-list model; refuted for types nested inside '<class' and for blank options.
* **C64 MDate day arithmetic.** Nanosecond-integer model; proved for date-only stamps; refuted for stamps carrying a time of day.
* **C65 Compound units are validated part by part.** Parser model; induction over the list of parts; table facts by computation over all 425 rows.
* **C66 A FIR filter has its stated gain at its reference frequency.** Real-number model of freqz; algebra.
* **C67 A filter keeps its response through an obspy stage.** Case analysis over filter kinds; refuted for FIR reference frequency, delay gain, empty pole-zero normalisation.
* **C68 A table filter reproduces its calibration table.** Sorted piecewise-linear interpolation over R; idempotence refuted.
* **C69 Runs of a station can be sorted by start time.** Station state machine; refuted: the start is an MTime, which has no split method, so the call raises for every non-empty station.
* **C70 Adding a station again merges its runs.** Station state machine: run names are kept; refuted for contents (new runs arrive empty, foreign channels are added to the first run).
* **C71 Times written as ISO text read back.** Calendar (day number to date and back, day by day), digits, writer and reader of ISO texts; inverse for every stored time. Refuted for stamps with more than 500 ns set by the nanoseconds setter, and for MTime.from_dict, which stores the raw text.
* **C72 Setting one component of a time changes only that component.** Components of a stamp and Timestamp.replace over the calendar model.
* **C73 Licences are stored under their identifier and accepted again.** Table model with the identifiers of licenses.json; proved for all spellings of all identifiers; refuted for CC BY-NC-SA (stored but not accepted) and for an unset licence (the default is not a value of the enumeration).
* **C74 An archived spectrogram is reused only if it was computed with the same parameters.** Check list model against a record of equalities (iff); the decimation method named in the documentation is not compared (refuted).
* **C75 Bands assigned to decimation levels come back and cover the right harmonics.** Loop invariant over the sorted keys; reuse of C15; keys are positions (refuted for levels stored in another order).
* **C76 The period of Fourier coefficients covers its parts.** Min/max over lists; refuted for a part with an end but no start (the wrong end is tested).
* **C77 Apparent resistivity and phase blocks give the impedance they describe.** Real-number model of the branch; proved for phases in (-90,90) and for yx in the first quadrant; refuted for other phases (sign lost, yx dropped).
* **C78 Station lines of a J-file give the station its location.** Key and rewriting proved; the value is refuted for every line (it is read from the text before '='), and so is reading a file whose first line with such a word has no '='.
* **C79 Header lines of a J-file give each key its value.** Scanner with positions modelled; proved for pairs with and without a blank after '='; refuted for lists, a blank before '=' and a leading single letter.
* **C80 A survey's release status survives StationXML.** Flipped release dictionary of the licence model; last entry with each status.
* **C81 Comments about a run reach that run.** Subjects, parsing and dispatch composed; proved for ids without capitals, blanks and dots; refuted for ids with capitals (lost) and for comments without a colon (lost).
* **C82 Equipment descriptions and run ids survive StationXML.** Split/strip model; proved for values without ':' and ','; refuted for an empty description and for values with ':' or ',' (ValueError).
* **C83 Electrode ids, dipole length and the runs of a channel survive StationXML.** Split/strip model; proved for ids and lists; refuted for other comments (lost, or ValueError with two colons) and ids with ','.
* **C84 Every channel of every run is in an epoch of StationXML.** add_run and compare_xml_channel modelled; invariants over the list of all channels of all runs: where every epoch comes from, what it covers, and the order of epochs; failures proved for all channels they concern or by example.
* **C86 The DEFINEMEAS section of an EDI file is read back.** Writer and line-by-line reader modelled; round trip proved for acquisition channels that are words; refuted for an empty acquisition channel (IndexError) and for magnetic channels called b.. (previous measurement stored instead).
* **C87 The HEAD section of an EDI file is read back.** Writer, line filter and reader modelled over the table of attributes; what becomes of every attribute proved; refuted for the declination (written under a name the reader does not know), for texts with a > or = and for headers without a station name.
* **C88 The INFO section of an EDI file is read back.** Writer and the readers of the three formats modelled; round trip proved for the standard format; refuted for known keys and keys in upper case, for parameters before remoteref and for values that contain magnetics or run information.
* **C89 A TF object returns the arrays it was given.** The dataset of a TF object with its setters and getters modelled over any kind of numbers; entry-by-entry specification; frame property of every operation and induction over programs.
* **C90 Errors follow from the covariances.** Modelled over abstract numbers and instantiated with complex numbers over the reals with nan.
* **C91 Merging transfer functions keeps the wanted rows and loses nothing else.** merge modelled with label slices of pandas and combine_by_coords of xarray; the result is described row by row with its sources. Refuted: TFs with equal first periods replace each other silently, equal periods raise, an object with falling periods cannot be merged into, tuples raise, TFs in dictionaries are reordered.
* **C92 The data of an EMTF XML file are read back.** Writer, XML reader, key conversion and block reader modelled and composed; entry-by-entry specification; failures proved for all data they concern.
* **C93 Transfer functions go through EMTF XML files.** Both conversions modelled statement by statement over the models of C89 and C92, composed with the file of C92; the square root is any function that is one to twelve digits; failures proved for all objects they concern.
* **C94 Transfer functions go through EDI files.** Both conversions modelled over the models of C89 and C48, composed with the written and read file; objects without an impedance have their own file; entry-by-entry specification over channels.
* **C95 The header of a Z file comes back.** Header writer and reader modelled line by line (the reading loop without an end as a non-returning call) and composed with the data blocks of C51; order of channels specified as sortedness by number.
* **C96 Transfer functions go through Z files.** Both conversions modelled over the models of C89, C95, C51 and C52 and composed with the written and read file; entry-by-entry specification over channels; failures proved for all objects they concern.
* **C97 The header of an AVG file comes back.** Writer and reader modelled line by line, with the validation of every attribute that is written (enumerations, positions, units, lists); field-by-field specification of what comes back; failures proved for all headers they concern.
* **C98 The data of an AVG file come back.** Writer and reader modelled line by line over the header of C97; rows are related by the rounding of their columns, arrays by the rows that fill each place; the distance between complex numbers follows from magnitude and phase over the reals; failures proved for all objects they concern.
* **C99 The channels of a run come back from StationXML.** The loop over channels modelled over the containers of C20 and the codes of C34 to C36; an invariant relates the channels of every run to the epochs read so far and is composed with the epochs of C84.
* **C85 Pass band of a filter and normalization frequency of a channel.** pass_band modelled over the real numbers with numpy's NaN and infinite cases spelled out; the places of passing windows characterised by a separate notion of flatness; failures proved for whole families of responses.
* **C100 Sensitivity and total gain of a channel.** Rounding to a number of digits after the first, with the power of ten from the logarithm; relative error proved over the real numbers.
* **C101 Every channel read from StationXML keeps its own filters.** The dictionary of filters is modelled with insertion order, names as ASCII text, sorting and int() of the last two characters as in the code. An invariant (unnamed filters of a type have the names type_00 ... type_n-1 and different amplitudes; every key holds one content for ever) is kept by every stage, channel and update. Networks violating each condition are computed as refutations.
* **C102 The site layout of an EMTF XML file comes back.** Elements as trees (C60), the reader of a dictionary key by key, the update as filters over the lists; names compared as permutations instead of sorted lists. The file may hold any other elements that read under other keys.
* **C103 The lists of estimates and data types of an EMTF XML file.** Arrays as optional lists of values; elements as trees; of what is read only the names are kept.
* **C104 Texts in an EMTF XML file.** Escaping and replacing as maps over characters, stripping as in the other text models.
* **C105 The data section of an EDI file comes back.** DsecModel: the section as a record, its lines, the scan for the section as a function over the lines with the number of the line, and the matching as two nested folds. Proved by induction over the lines before the section, its fields and the lists; the sorting by permutation and sortedness; refuted where the code loses something: spectra, zeros, order by number, ids left from an earlier file, short lists.
* **C106 The fields of a class do not depend on the cache.** PyJson models json.dumps and json.loads on texts; PyJsonFacts proves that what is dumped is loaded, and that a text of an object cut short or with characters not yet written does not load. CacheModel is a state machine: memory, files, clock; other processes, failing writes and exceptions are functions of the clock. An invariant (memory holds trees except for classes being computed, files hold at most unfinished copies) gives every answer. Refuted by runs: after an exception, after a release that changes a class held by another or a description, for classes that contain each other.
* **C107 The dotted names of the fields are exactly those of the simple fields.** CacheFlat: induction over JSON trees; the names are recovered from a dotted name because they have no dots.
* **C108 Metadata written as JSON is read back as the same dictionary.** JsonModel: the encoder, to_json, from_json over PyJson. Round trip by induction over the tree (PyJsonFacts). Refuted: a path given as a text always fails, a missing file is an UnboundLocalError, a numpy bool cannot be written.
* **C109 The runs of a station come back from an EMTF XML object.** FnotesModel: the setter's and the getter's loops over runs, magnetometers, dipoles and layout channels. FnotesSpec: the run that comes back, written without the loops. FnotesProofs/Read/Back: induction over runs and channels. FnotesStable: the second trip. Refuted parts: a missing channel, the second electrode's type, a single magnetometer, positions that differ between runs, remarks without labels, electrodes without a number.
* **C110 The comments of stations and surveys carry what an EMTF XML object has no other place for.** RemarkModel: the parser with its five helpers and the two comments. RemarkProofs: the pieces of a joined text, by induction. RemarkTrip: the round trip, totality, free texts. Refuted parts: free comments of a station do not come back; semicolons and newlines cut texts; some comments on field notes raise or go to the wrong dipole, magnetometer or channel.
* **C111 The runs, the remote reference and the remote site of a station through an EMTF XML object.** RrefModel: the loop over parameters, the tag, the getter's parameters, the run list validator. RrefSpec: an inductive relation for the id that wins. RrefProofs: induction over the parameters. Refuted parts: references are lost and an empty one is invented, at most one of several comes back, other parameters are lost, the remote site's runs gather quotes, its coordinates are never written.
* **C112 A survey written as a StationXML network comes back, with an identifier that grows.** NetModel: writing and reading step by step in the order of the translator, comments by the model of C54. NetSpec: the survey that comes back. NetProofs: the trip, and by induction any number of trips.
* **C113 A transfer function always has a station, and what its setters do to stations and runs is determined.** TmetaModel: stations in a heap, the setters with the validators of C23. TmetaProofs, TmetaSteps: what the validator keeps, by induction on its depth; invariants over histories of assignments.
* **C114 An experiment that is written to XML is read with all it has, but for filters alone in their class, FIR filters and empty stations.** ExpxModel: the tree that is written, the dictionaries taken out of it, on XmlModel's writer and reader. ExpxProofs: what grouping children by tag gives. ExpxRead, ExpxSurvey: runs, stations, filters and surveys, by induction on their lists. Refuted parts with the exception raised for every such survey.
* **C115 An experiment that is written as a dictionary is read as it was, but for frequency tables, and the filters of a survey have keys that depend on how they are given.** ExpdModel: the dictionary, the validators of filters, stations, runs and channels. ExpdProofs: lists of parts come back, by induction; dictionaries filled entry by entry keep the last. The frequency table's type is not among those that are read: the exception for every such survey.
* **C116 A channel given by its name or as a dictionary gets a class that its first letter or its type says.** ExpdModel: the choice of the class and the patterns of components. ExpdProofs: a component fits exactly if it is named for the class, by a check over all characters. ExpdProps: names, dictionaries, boundaries.
* **C117 A channel takes filters of all old formats out of a dictionary, and changes none of those it has.** LegfModel: flags, names and filters as given, and how they are added with the operations of ChanFiltModel. LegfProofs: texts with commas are split into what they are joined from; adding to a numbered list appends; nothing is lost, by induction over each format.
* **C118 The notes of an EDI object keep the metadata of the station and of the survey.** Model the setters as updates of an ordered dictionary and the getters as folds that log what is assigned; prove the trip by induction on fields, parameters, runs and channels.
* **C119 A station with its runs comes back from StationXML.** Model both directions over records of stations, runs, equipments and comments, with the comment parser of C54 and the descriptions of C82; prove the trip by induction over notes, runs and comments, the times by a specification of the earliest and latest known time.
* **C120 A channel comes back from StationXML.** Model both directions over records of channels, sensors, electrodes and equipments with the codes of C36 and the texts of C83; prove the result of the trip field by field and refute the rest.
* **C121 A directory of XML files is sorted into its stations, runs and channels.** Model the data frame as a list of rows; prove the classification by counting dots, the order by induction on the sort, the channels by a lemma on texts between dots.
* **C122 The channels an EDI object reports are those of the station it was given.** Model the notes and measurements that the setter leaves and the two readers as dictionaries of attributes; prove that exactly the notes of the channel are found, that the last write wins, and that the computed angle is the one of the displacement.
* **C123 The INFO section of a Phoenix file is read entry by entry, in one or two columns.** The reader is in the model of the INFO section; prove that gaps between words are runs of blanks, that the widest one is found, and an induction over the rows for the dictionary.
* **C124 An Empower INFO section puts each entry under the block and channel it stands in.** The reader is in the model of the INFO section; give a specification of lines as writes at a place, show by cases on the entry that the reader's action is that write, and lift to whole sections by induction over the lines.
* **C125 The coherence of Fourier coefficients is between 0 and 1 and blind to instrument responses.** Model the means, powers and the replacement of what is not finite per frequency; prove the Cauchy-Schwarz inequality for lists of complex numbers with its case of equality through the residual of b x - s y, and lift to arrays.
* **C126 Striding windows are exactly the windows inside the series, with or without workers.** Model range, slices, the loop and the executor with an arbitrary order of completion; the coherence function is a parameter that may fail. Invariant: a slot holds the result of its window. Both ways reduce to the results of the windows in order.
* **C127 The stations of a coherence feature are resolved to the local or the remote one.** Model the two passes over both stations; characterise the result by an inductive relation and show that it is the only one.
* **C128 TF.write writes the file asked for, in the format asked for, and TF.read takes it for that format.** Model pathlib's parts, names and suffixes and the branches of write and read; the specification describes names by their parts around dots and slashes; prove that parsing inverts spelling, and the cases from it.
* **C129 A text given for an array becomes exactly the numbers in it, in their order.** Model the regular expression as a matcher with its backtracking, findall and the branches; specify numerals and separators by grammar; prove that the matcher stops exactly at the end of a numeral and nowhere in a separator, and that float refuses the text as a whole unless it is one number.
* **C130 A comment read from a dictionary is what the dictionary says, and comes back from XML with author and text.** CmdModel.v models the field validators, from_dict, read_dict and to_xml over the values of XmlModel; MTime is an argument. CmdSpec.v says what a dictionary says. Refutations are stated beside.
* **C131 Transfer functions are equal exactly when their metadata and their data are.** TeqModel.v models __eq__ on the TF objects of TfModel.v, with the comparisons of metadata and numbers as arguments; TeqSpec.v says when two functions are the same.
* **C132 A collection given to a survey, station, run, experiment or FC object is held entirely or refused.** VlsModel.v models the six validators over the ListDict of ListDictModel.v; what a dictionary is made into is an argument of the entry. VlsSpec.v says what an entry stands for and what a collection should hold.
* **C133 Reading a J file or an AVG file fills a TF with exactly that file.** TjaModel: the assignments of from_jfile and from_avg in order, on the TF of TfModel; theorems from the setters' theorems (C89).
* **C134 Dipoles and electrodes of field notes come back from an EMTF XML file.** DipModel: to_xml of dipole and electrode, and reading by element_to_dict (XmlModel), the lower-case keys (EmtfModel) and from_dict with its flattening; DipSpec says what should come back.
* **C135 Weights given as dictionaries become the features, kernels and specifications they describe.** WspModel models the validators over an inductive type of Python values with abstract constructors of features and kernels; each level is proved equivalent to a relation (WspSpec); the written form and wrapped objects are refuted
* **C136 Names given as a text with commas, a list or an array become the list of those names.** TxlModel: the validators branch by branch, with the comparison of an array with a list of words; equivalence of the result of a text with a relation between a text and its names (TxlSpec)
* **C137 The channels of an AVG file are the sensors it describes.** ZchModel: the five channels and the run over the components of a header, values as CH.validate_comma_separated_fields leaves them (TxlModel); the sensors a component describes are stated in ZchSpec
* **C138 Sections of an EMTF XML file come back field by field.** EwsModel: the writer over the kinds of values a field can have, on the trees and dictionaries of XmlModel, EmtfModel and LayModel; the remote site as a state that is changed by each call of write
* **C139 Making an experiment from a directory of XML files.** MmkModel.v: the making functions over an abstract reader of file contents, with update_attribute and the station validator; success characterised exactly, the result described by a dictionary-filling specification; universal failure of channels by cases on the class; refutations for empty listed runs, elevation, filter types.
* **C140 Station metadata of a J file.** JstModel.v: station_metadata over the container model of runs and stations; characterised for every header and array, failures exactly.
* **C141 Channel names of transfer functions.** NmcModel.v: a heap of dictionaries, objects holding references, the class level cache; theorems over all histories by induction with an invariant for the cache; refutations for aliasing, cache, stale inverse, failed setting.
* **C142 Experiments as JSON texts and files.** ExpjModel.v over ExpdModel.v (dictionaries of experiments) and PyJson.v (the json module) with a file system; round trip by induction over values and PyJsonFacts; stopped writing by the theorem that a proper prefix of an object is refused. Refutations: name of a file given as a text, missing file, other types, frequency tables.
* **C143 The table of bands of a decimation level.** BdfModel.v with the sorting as a parameter of which only order and permutation are assumed; uniqueness of sorted permutations; C15's exactness of indices for the order of frequencies.
* **C144 Weights of a channel for a band.** WfbModel.v over real numbers with argmin as a loop; an invariant of the loop gives the first of the nearest; order arguments on absolute values.
* **C145 Times at hour 24.** P24Model.v on the calendar of C71: dateutil for texts in the written form with its error about the hour, the replacement of T24 by T23 and the hour added; lemmas on replacing in texts without another T.
* **C146 Copies of metadata objects.** CpyModel.v with a memory of nested objects and deepcopy with its memo; an invariant of the memo gives new places with equal contents; settings change one place only.
* **C147 Coefficients of a window.** TapModel.v: a state machine of settings and questions with get_window of scipy as a parameter; induction over histories.
* **C148 What is left after reading and writing elements of EMTF XML.** PrdModel.v with the dictionary as it is left beside the object; case analysis on keys.
* **C149 Names of frequency bands.** BnmModel.v: a state machine of settings with the validator of the name and that of the whole band; induction over histories; the text of six decimals read back.
* **C150 Ratings of data quality.** RatModel.v on the texts of integers of PyFloat.v; case analysis, floors of rational numbers, and induction over histories.
* **C151 Normalization frequency of a filter of poles and zeros.** NrmModel.v on the pass band of PassModel.v and C85_ends; np.median by sorting; the inequality of the means.
* **C152 A processing configuration made to fit a dataset.** VprModel.v on the stations and tables of DatasetModel.v and the round trip of C43; case analysis and induction over the rows for the second time.
* **C153 Tables of the metadata standards.** StdModel.v: rows as association lists of cells; induction over the columns and over the dictionary, case analysis for the types of output.


## Print Assumptions of every theorem

Generated from the compiled files. All axioms are those of the standard library.

### Closed under the global context

C01_fallback_key_is_decimal, C01_keys_stay_unique, C01_listdict_refines_ordered_map, C01_lookup_is_last_write, C01_raise_leaves_unchanged, C01_update_atomic_refuted, C02_integer_out_of_range_raises, C02_position_agrees_with_key, C02_slice_bad_endpoint_raises, C02_slice_is_position_range, C03_sort_idempotent, C03_sort_none_key_raises, C03_sort_permutes_into_key_order, C04_pop_empty_key_returns_first, C04_pop_missing_raises, C04_pop_removes_requested_iff_last_partial, C04_pop_removes_requested_refuted, C04_pop_returns_last_item, C05_copy_keeps_items, C05_update_keys_last_carrier_wins, C05_update_keys_loses_colliding_refuted, C05_update_keys_rekeys, C05_update_keys_reports_renames, C06_dotted_names_unambiguous, C06_empty_subdict_lost_refuted, C06_flatten_lists_every_leaf, C06_flatten_names_distinct, C06_other_separator_refuted, C06_separator_in_key_refuted, C06_structure_inverts_flatten, C07_get_returns_what_set_stored, C07_missing_level_raises, C07_nested_set_frame, C07_nested_set_get, C07_set_disturbs_nothing_else, C07_update_attribute_agrees, C08_idempotent_partial, C08_idempotent_refuted, C08_letters_preserved, C08_rejects_leading_digit, C08_result_lower_case_no_slash, C09_other_names_refuted, C09_tag_names_convert_back, C09_tags_distinct, C101_decimating_refuted, C101_filters, C101_hundred_refuted, C101_order, C101_same_name_refuted, C101_same_size_refuted, C101_type_in_name_refuted, C102_again, C102_double_refuted, C102_no_array_refuted, C102_order_refuted, C102_round_trip, C102_update, C102_whole, C103_estimates, C103_no_estimates_refuted, C103_no_types_refuted, C103_tipper_refuted, C103_types, C104_again, C104_different_refuted, C104_nothing, C104_same, C104_text, C105_again, C105_lines, C105_list, C105_match, C105_order_refuted, C105_round_trip, C105_short_list_refuted, C105_spectra_refuted, C105_stale_refuted, C105_zero_refuted, C106_answers, C106_cyclic_refuted, C106_description_change_refuted, C106_every_answer, C106_interrupted_refuted, C106_nested_change_refuted, C106_release, C106_torn_file, C107_all_fields, C107_names_differ, C108_ascii, C108_file_round_trip, C108_missing_file_refuted, C108_numpy_bool_refuted, C108_round_trip, C108_str_path_refuted, C108_writes, C109_electrode_number_refuted, C109_example_back, C109_missing_channel_refuted, C109_negative_electrode_refuted, C109_no_runs, C109_one_sensor_refuted, C109_places_refuted, C109_read_back, C109_remark_refuted, C109_stable, C10_before_table_raises, C10_leap_seconds_correct_partial, C10_never_wrong, C10_nondecreasing, C10_total_refuted, C110_accepted, C110_again, C110_cut_refuted, C110_free_text, C110_lost_refuted, C110_misplaced_refuted, C110_raises_refuted, C110_station_comment, C110_survey_comment, C111_coordinates_refuted, C111_parameters_refuted, C111_references_refuted, C111_remote_runs_refuted, C111_remote_site, C111_run_list, C111_runs_and_reference, C111_several_refuted, C111_tag, C112_a_journal_cannot_be_read, C112_a_lead_needs_an_address, C112_a_lead_needs_an_organization, C112_a_long_identifier_is_refused, C112_a_name_is_needed, C112_a_survey_comes_back, C112_the_code_and_the_comment_are_ignored, C112_the_identifier_grows, C113_a_further_survey_is_added, C113_a_given_station, C113_a_new_name_is_not_a_key, C113_a_plain_station, C113_a_station_is_always_there, C113_a_survey_brings_its_stations, C113_given_again, C113_no_run_no_station, C113_runs_cannot_be_set_refuted, C113_runs_refuted, C113_stations_are_shared, C113_the_first_run_stays, C114_a_survey_is_read, C114_all_fields_refuted, C114_an_experiment_is_read, C114_filters_class_by_class, C114_fir_refuted, C114_no_run_refuted, C114_no_station_refuted, C114_one_of_a_class_refuted, C114_the_last_of_a_name, C115_a_list_is_taken, C115_an_experiment_is_read, C115_filters_in_a_dictionary, C115_filters_in_a_list, C115_given_again_refuted, C115_only_filters, C115_tables_refuted, C115_the_last_of_a_name, C116_a_channel_comes_back, C116_a_name_is_a_channel, C116_a_type_is_needed, C116_h_without_type_refuted, C116_r_refuted, C116_words_of_types_refuted, C117_blank_text, C117_flag_not_updated_refuted, C117_incomplete, C117_legacy_new, C117_legacy_read, C117_lengths, C117_none_alone, C117_nothing_changes, C117_one_dictionary, C117_one_side_empty, C117_text_read, C117_text_replaces_refuted, C117_text_twice_refuted, C117_three_formats, C117_trip, C118_capitals_refuted, C118_dots_refuted, C118_no_equals_refuted, C118_null_parameter_refuted, C118_processed_date_refuted, C118_program_refuted, C118_run_provenance_refuted, C118_runs_refuted, C118_same_name_refuted, C118_station, C118_survey, C118_survey_beside_station, C119_again, C119_colon_refuted, C119_declination_refuted, C119_fdsn_refuted, C119_no_logger_refuted, C119_no_name_refuted, C119_operator_refuted, C119_period_refuted, C119_trip, C11_gt_wrong_exactly_on_equal_times, C11_order_without_gt_partial, C11_trichotomy_refuted, C120_units, C121_channels, C121_channels_own, C121_kinds, C121_one_kind, C121_orphan_refuted, C121_other_refuted, C121_run_name_refuted, C121_runs, C121_same_name_refuted, C121_sortable, C121_stations, C123_left_title_refuted, C123_lost_column_refuted, C123_one_column, C123_other_keys_refuted, C123_resistance_refuted, C123_right_title_refuted, C123_section, C123_sensor_refuted, C123_two_columns, C124_cut_key_refuted, C124_next_block_refuted, C124_other_titles_refuted, C124_reference_id_refuted, C124_section, C124_short_number_refuted, C124_value, C126_complete, C126_empty_subwindow_refuted, C126_error, C126_full_overlap_refuted, C126_more_overlap_refuted, C126_parallel, C126_short_refuted, C126_subwindow, C126_windows, C127_again, C127_contradiction_refuted, C127_named, C127_roles_refuted, C127_stations, C127_unset_refuted, C128_base, C128_base_ext, C128_base_untyped, C128_case_refuted, C128_default, C128_directory, C128_dotted_base_refuted, C128_failed_write_refuted, C128_fn, C128_fn_bare, C128_fn_j, C128_fn_unsupported, C128_moved_refuted, C128_other_extension_refuted, C128_read, C128_read_fn, C128_unnamed_station_refuted, C128_unsupported, C129_complex_refuted, C129_list, C129_names_refuted, C129_nan_refuted, C129_no_digits, C129_point_refuted, C129_text, C12_in_range_seconds_kept, C12_monotone_refuted, C12_monotone_seconds_partial, C12_nanoseconds_kept, C12_parsed_number_in_range, C12_parsed_stamp_in_range, C12_total_refuted, C130_bars, C130_dictionary, C130_dictionary_refused, C130_empty_element_refuted, C130_lone_author_refuted, C130_lone_list_refuted, C130_no_bar, C130_other, C130_read_dict, C130_read_dict_refused, C130_read_dict_text, C130_text, C130_time_lost_refuted, C130_xml, C130_xml_changes_refuted, C130_xml_time_refuted, C131_equal, C131_equivalence, C131_errors_refuted, C131_other_refuted, C131_periods_refuted, C132_accepts, C132_again, C132_distinct, C132_errors, C132_lost_refuted, C132_other, C132_refused, C132_taken, C132_text_refuted, C133_avg, C133_jfile, C133_reads, C133_refused, C133_refused_refuted, C133_stale_refuted, C134_again, C134_dipole, C134_none_refuted, C134_one_electrode_refuted, C134_values_refuted, C135_channel, C135_feature, C135_level, C135_name_refuted, C135_refused, C135_wrapped_object_refuted, C135_written_feature_refuted, C135_written_kernels_refuted, C135_written_refuted, C136_again, C136_array, C136_array_one, C136_array_refuted, C136_fc, C136_fc_refuted, C136_indices, C136_indices_all, C136_indices_refuted, C136_list, C136_nothing, C136_run_nothing_refuted, C136_station_nothing_refuted, C136_text, C136_text_always, C136_zonge, C136_zonge_refuted, C137_channels, C137_hz_refuted, C137_missing_refuted, C137_no_orientation, C137_none, C137_plain, C137_single_refuted, C137_tipper, C137_zxx_refuted, C138_attachment, C138_attachments, C138_attachments_again, C138_empty, C138_no_runs, C138_objects, C138_others_refuted, C138_remote, C138_remote_refuted, C138_runs, C138_runs_refuted, C138_section, C138_stale_refuted, C138_total, C138_twice_refuted, C139_channel_error, C139_channel_refuted, C139_elevation_refuted, C139_empty_runs_refuted, C139_experiment, C139_look_refuted, C139_made, C139_types_refuted, C139_with_channels_refuted, C13_add_error_bound, C13_add_monotone, C13_add_subtract_partial, C13_nanoseconds_refuted, C13_overflow_raises, C140_cases, C140_fails, C140_no_impedance, C140_no_interval_refuted, C140_not_read_refuted, C140_station, C141_alias_refuted, C141_cache_refuted, C141_caller_refuted, C141_failed_refuted, C141_fresh, C141_inverse, C141_keeps, C141_labels, C141_missing, C141_new_labels, C141_set, C141_stale_refuted, C141_zmm, C142_absolute_name_refuted, C142_file, C142_missing_refuted, C142_name_refuted, C142_neither_refuted, C142_not_opened, C142_other_json, C142_stopped, C142_table_refuted, C142_text, C143_closed_refuted, C143_columns, C143_edges, C143_frequency_order, C143_no_level, C143_set_array, C143_set_frame, C143_table, C143_ties_refuted, C143_unique, C145_hour_24, C145_last_midnight_refuted, C145_order, C145_other_hours, C145_other_years_refuted, C145_past_midnight_refuted, C145_refused, C145_words, C146_cannot, C146_copy, C146_kind_refuted, C146_new_names_refuted, C146_reference_refuted, C146_separate, C146_shallow, C146_shared, C146_storage, C146_unset, C148_dictionary, C148_missing, C148_orientation, C148_orientation_changed_refuted, C148_read, C148_same_object, C148_second_object_refuted, C148_site, C148_site_changed_refuted, C149_automatic, C149_blank, C149_blank_refuted, C149_centre_refuted, C149_different, C149_empty_band_refuted, C149_frequencies, C149_given, C149_has_name, C149_same_refuted, C149_stale_refuted, C14_channel_idempotent_partial, C14_errors, C14_idempotent_partial, C14_idempotent_refuted, C150_error, C150_floats, C150_integers, C150_invalid_refuted, C150_nothing, C150_other_texts, C150_outside_refuted, C150_range, C150_text_refuted, C152_again, C152_engines, C152_only_remote, C152_remote_lost, C152_remote_refuted, C152_stations, C153_columns, C153_columns_of_frames, C153_distinct_refuted, C153_file, C153_file_refuted, C153_missing, C153_no_names, C153_outcome, C153_room, C153_rows, C15_fft_harmonics_of_band, C15_in_band_harmonics, C15_indices_exact, C15_set_indices_total, C15_unsorted_axis_refuted, C16_contains, C16_contains_implies_overlaps, C16_contains_self_exactly, C16_contains_self_refuted, C16_nonempty, C16_overlaps_is_common_point, C16_overlaps_symmetric, C17_band_lookup, C18_accepts, C18_history, C19_delay_lists, C20_none, C20_odd_length, C20_odd_symmetric_exactly, C21_add_name, C21_blank_refused, C21_channel_response, C21_get_filter, C21_no_duplicates_partial, C21_no_duplicates_refuted, C21_remove, C21_remove_keeping_stages, C21_stage_order_partial, C21_stage_order_refuted, C22_assignment_adds, C22_assignment_refuted, C22_class_from_dict_partial, C22_class_from_dict_refuted, C22_class_from_name, C22_get, C22_history, C22_no_duplicates, C22_partition, C22_placeholder_refuted, C22_readd, C22_recorded_lists, C22_update_union, C23_default_ignored, C23_idempotent, C23_order_irrelevant, C23_run, C23_run_never_shrinks, C23_station, C23_survey, C23_survey_history, C23_update_period, C23_update_run_refuted, C24_phantom_channel_always, C24_phantom_channel_refuted, C24_recorded_after_last_run_refuted, C24_remove_raises_refuted, C24_remove_run_partial, C25_add_after_removal_refuted, C25_add_run_effect, C25_add_runs, C26_added_station_in_box, C26_box_is_determined, C26_every_call, C26_history, C26_last_station_removed_refuted, C26_moved_to_zero_refuted, C26_order_irrelevant, C26_position_never_set_refuted, C26_unknown_positions_ignored, C27_add_remove, C27_add_survey_again_keeps_stations, C27_add_survey_again_refuted, C27_merge_disjoint, C27_merge_get, C27_merge_ids, C27_shared_survey_refuted, C28_array_with_zero_refuted, C28_author_erased_refuted, C28_blank_comment_keeps, C28_comment_parts, C28_comment_text, C28_exact_rule, C28_false_refuted, C28_one_of_the_two, C28_ordinary_values_arrive, C28_other_class_ignored, C28_unset_values_keep, C28_word_refuted, C28_zero_refuted, C29_comment_difference_refuted, C29_coordinate_symmetry_refuted, C29_difference_found, C29_meaning, C29_reflexive, C29_symmetric_partial, C29_tolerance_symmetry_refuted, C29_transitivity_refuted, C30_array_with_zero_refuted, C30_emptied_text_refuted, C30_full_round_trip, C30_required_comment, C30_required_round_trip_partial, C30_unset_coordinate_refuted, C31_author_read_as_time_refuted, C31_bar_refuted, C31_blank_refuted, C31_dictionary, C31_equality, C31_equals_none_refuted, C31_four_parts_refuted, C31_no_text_refuted, C31_reread, C31_round_trip, C32_minutes_and_seconds_below_60, C32_round_trip_partial, C32_same_text, C32_sign_refuted, C32_three_parts, C33_accepted_is_in_range, C33_in_range_number_unchanged, C33_none_is_zero, C33_out_of_range_refused, C33_text_counts_as_its_number, C33_written_position_is_accepted_partial, C34_bands_follow_the_rate, C34_letter_is_read_as_its_band, C34_letter_of_rate, C34_letters_never_given, C34_one_letter, C34_uncovered_rates_refuted, C36_location_code, C36_three_characters, C37_accepted, C37_case_variant, C37_geomagnetic_accepts, C37_geomagnetic_kept, C37_geomagnetic_refuted, C37_not_a_text, C37_others_refused, C38_add, C38_add_dictionary, C38_kept_once_refuted, C38_list_of_dictionaries, C38_list_of_levels_doubled, C38_lookup, C38_lookup_of_given_levels, C38_other_values, C38_single_and_dictionary, C39_assign_bands_refuted, C39_assign_bands_uniform, C39_assigned_rate, C39_cascade, C39_cascade_default, C39_emtf, C39_zero_factor, C40_own_archive, C40_own_archive_refuted, C41_monotone, C41_no_window_required_refuted, C41_number_of_windows, C41_overlap_too_long_refuted, C41_valid_iff_windows_fit, C42_added_channel_not_reported, C42_added_channel_present_refuted, C42_assignment_synchronises, C42_found_after_an_assignment, C42_level_added, C42_level_removed, C42_levels_history, C42_listed_channel_updated, C42_remove_channel, C42_repeated_level_refuted, C42_repeated_name_refuted, C43_any_table, C43_empty_station_refuted, C43_get_station, C43_only_remote_raises, C43_read_twice_refuted, C43_reading_succeeds, C43_repeated_run_refuted, C43_run_without_period_refuted, C43_shared_channel_refuted, C43_station_round_trip, C43_stations_round_trip, C43_unflagged_remote_refuted, C44_accepted_keyword, C44_allowed_names, C44_allowed_names_total, C44_channels, C44_channels_refuted, C44_construct_accepts, C44_constructor, C44_custom_labels_refuted, C44_electric_labels, C44_every_map_refuted, C44_given_label_refuted, C44_history_after_keyword, C44_history_last_label, C44_history_valid, C44_keyword_sets_all_labels, C44_labels_distinct, C44_none_is_default, C44_other_keywords_refused, C44_round_trip_partial, C44_round_trip_refuted, C44_unpack, C45_infinite_bound_refuted, C45_threshold_kernel_refuted, C47_dictionaries, C48_block, C48_file, C48_file_rising, C48_marker_refuted, C48_same_file, C48_tipper_errors_refuted, C50_descending, C50_pairs, C50_rotation_refuted, C50_single_refuted, C50_unsorted_refuted, C51_again, C51_any_block, C51_exponent_refuted, C51_file, C51_header_refuted, C51_hermitian, C51_period_refuted, C53_blank_line_refuted, C53_order_partial, C53_order_refuted, C53_periods, C53_tipper_refuted, C53_values, C54_author, C54_author_refuted, C54_colon_refuted, C54_comma_refuted, C54_many_refuted, C54_pairs, C54_subject, C54_text, C54_written, C55_duplicate, C55_inverse, C55_last, C55_sound, C56_blank_refuted, C56_empty_refuted, C56_pairs, C56_tagged, C56_words, C57_bounds, C57_bounds_pairing_refuted, C57_level_harmonics, C58_all_below_nyquist_partial, C58_fft_harmonics, C58_odd_length_refuted, C59_add_dict, C59_bool_refuted, C59_csv, C59_csv_comma_refuted, C59_csv_many_options_refuted, C59_csv_options_refuted, C59_default_refuted, C59_delete, C59_latex_refuted, C59_list_default, C59_missing_refuted, C59_name_refuted, C59_set, C59_set_good, C59_update_stops, C60_attribs, C60_attribs_children, C60_attribs_item_refuted, C60_attribs_text, C60_children, C60_empty_refuted, C60_exact, C60_exact_printed, C60_item_refuted, C60_single_refuted, C60_units_only, C60_units_other, C60_units_read, C60_units_refuted, C60_values, C61_class_key_unpacked, C61_dotted_keyword_reaches_object_partial, C61_keywords_all_reach_object_refuted, C61_plain_keyword_reaches_object_partial, C62_accepted_station_names, C62_bad_character_rejected, C63_options_never_blank_refuted, C63_options_read_back, C63_options_trimmed_and_clean, C63_required_accepts_case_variants, C63_style_canonical, C63_type_idempotent_partial, C63_type_idempotent_refuted, C63_units_idempotent, C64_day_arithmetic, C64_self_difference_refuted, C65_compound_partial, C65_compound_refuted, C65_counts_case_refuted, C65_name_any_case, C65_symbol, C65_symbol_refuted, C69_sort_runs_by_time_refuted, C70_runs_arrive_refuted, C70_runs_unchanged_refuted, C70_update_keeps_runs, C71_beyond_the_range, C71_calendar, C71_date_reads_back, C71_different_times_different_text, C71_from_dict_refuted, C71_nanoseconds_refuted, C71_no_such_day_refused, C71_number_reads_back, C71_text_is_read, C71_written_time_reads_back, C72_components_determine, C72_order_of_setters, C72_out_of_range_refused, C72_ranges, C72_set_one_component, C72_set_same_value, C72_set_succeeds, C73_accepted_again_partial, C73_every_spelling, C73_every_spelling_of_any_list, C73_nc_sa_refuted, C73_others_refused, C73_release_status, C73_unset_refuted, C74_accepted_iff_same_parameters, C74_decimation_method_refuted, C74_filter_mismatch, C74_raises, C75_edges_round_trip, C75_harmonics, C75_keys_are_positions_refuted, C76_covers, C76_end_without_start_refuted, C76_never_shrinks, C76_parents, C76_tight, C78_comment_refuted, C78_file_refuted, C78_key, C78_rewritten, C78_value_refuted, C79_blank_refuted, C79_letter_refuted, C79_list_refuted, C79_values, C80_licence_kept, C80_read, C80_status, C81_capital_refuted, C81_only, C81_person, C81_text_refuted, C82_colon_refuted, C82_comma_refuted, C82_description, C82_description_written, C82_empty_refuted, C82_run_id, C83_colons_refuted, C83_comment_refuted, C83_dipole, C83_electrodes, C83_electrodes_refuted, C83_runs, C83_runs_read, C84_direction_refuted, C84_first_only_refuted, C84_hidden_refuted, C84_listed, C84_one_at_a_time, C84_only, C84_unsorted_refuted, C86_b_first_refuted, C86_b_refuted, C86_empty_refuted, C86_empty_section_refuted, C86_section, C87_declination_line, C87_declination_refuted, C87_gt_refuted, C87_header, C87_no_station_refuted, C88_info, C88_key_refuted, C88_magnetics_refuted, C88_parameters_refuted, C88_run_information_refuted, C89_constructor_refuted, C89_first_labelled_refuted, C89_get, C89_history, C89_inverse_names_refuted, C89_labelled, C89_model_error_refuted, C89_names_refuted, C89_new, C89_period_one_refuted, C89_periods, C89_raises, C89_refused, C89_set, C90_errors, C90_none_refuted, C90_order, C91_apart, C91_merge, C91_order_refuted, C91_other_changed_refuted, C91_replaced_refuted, C91_same_refuted, C91_tuple_refuted, C91_when, C92_absent_refuted, C92_again, C92_alone, C92_file, C92_none_refuted, C92_one_refuted, C92_texts_refuted, C92_zero_refuted, C93_file, C93_held, C93_names_refuted, C93_object, C93_object_refuted, C93_signal_refuted, C93_to, C94_angles_refuted, C94_file, C94_file_falling, C94_object, C95_case_refuted, C95_count, C95_file, C95_header, C95_longitude, C95_no_periods_refuted, C95_order, C95_order_kept, C95_station_refuted, C95_unnumbered_lost_refuted, C95_unnumbered_refuted, C95_write_numbers, C95_written, C96_foreign_refuted, C96_missing_refuted, C96_nothing_refuted, C97_capital_refuted, C97_component_refuted, C97_equals_refuted, C97_few_angles_refuted, C97_header, C97_length_with_unit, C97_new_refuted, C97_no_smoothing_refuted, C98_no_impedance_refuted, C98_stale_refuted, C99_auxiliary_refuted, C99_no_list, C99_no_list_refuted, C99_rate_refuted, C99_round, C99_unknown_run_refuted

### `ClassicalDedekindReals.sig_forall_dec`

C18_cleared_units_refuted, C18_in_place_refuted

### `ClassicalDedekindReals.sig_forall_dec`, `FunctionalExtensionality.functional_extensionality_dep`

C144_monotone, C147_after_setting_refuted, C147_before, C147_error, C147_fresh, C147_normalized_refuted, C147_same, C147_settings, C20_even, C20_odd_refuted

### `ClassicalDedekindReals.sig_forall_dec`, `ClassicalDedekindReals.sig_not_dec`, `FunctionalExtensionality.functional_extensionality_dep`

C120_auxiliary_refuted, C120_bartington, C120_blank_model_refuted, C120_comment_refuted, C120_electric, C120_electric_again, C120_magnetic, C120_magnetic_again, C120_magnetic_kept, C120_negative_refuted, C120_no_type_refuted, C120_numbered_refuted, C120_period, C120_tilt_refuted, C120_unknown_type_refuted, C125_bounds, C125_filtered, C125_minimum_refuted, C125_one, C125_order, C125_shapes, C125_swap, C125_value, C125_zero, C144_arithmetic, C144_array, C144_array_refuted, C144_centre, C144_errors, C144_geometric_refuted, C144_nearest, C17_bands, C17_bands_default_refuted, C17_sort_ascending, C17_sort_descending, C17_validate, C19_append, C19_normalised, C19_order, C19_product, C19_product_given, C19_split, C19_total_delay, C20_even_linear_phase, C35_direction_insensitive, C35_every_azimuth, C35_horizontal, C35_other_orientation_refuted, C35_vertical, C36_channel_name, C36_losses_refuted, C36_named_direction, C36_round_trip_partial, C36_tilted_vertical_refuted, C45_composite, C45_composite_style_refuted, C45_cut_is_zero_refuted, C45_exchanged_bounds_refuted, C45_extremes, C45_least, C45_monotone, C45_nan_value_refuted, C45_weights, C46_equal_bounds_refuted, C46_extremes, C46_infinite_bounds, C46_weights, C47_channel_weight, C47_combination, C47_default_dictionary_refuted, C47_each_kernel, C47_feature_weight, C47_inactive_kernel_refuted, C47_kernels, C47_missing_values, C47_mixed_refuted, C47_no_kernels, C47_order, C49_exact, C49_least_squares, C49_no_tipper_refuted, C49_residual_covariance, C49_uncorrelated_refuted, C52_aligned, C52_declination, C52_error, C52_impedance, C52_parallel_refuted, C52_read_again_refuted, C52_skew_electric_refuted, C52_skew_magnetic_refuted, C52_tipper, C66_gain_at_reference, C66_gain_at_zero, C67_coefficient_in_channel, C67_delay_exactly, C67_empty_pole_zero_refuted, C67_fir_refuted, C67_round_trip_partial, C68_phases_kept, C68_table_points, C77_error, C77_impedance_kept, C77_resistivity_and_phase, C77_second_quadrant_refuted, C77_yx_first_quadrant, C77_yx_third_quadrant_refuted, C90_complex, C96_bare_refuted, C96_default, C96_file, C96_no_covariance_refuted, C96_object_refuted, C98_again, C98_error_refuted, C98_frame, C98_merge_refuted, C98_new_refuted, C98_small_error_refuted, C98_tipper_error_refuted

### `ClassicalDedekindReals.sig_forall_dec`, `ClassicalDedekindReals.sig_not_dec`, `Classical_Prop.classic`, `FunctionalExtensionality.functional_extensionality_dep`

C100_frequency_refuted, C100_sensitivity, C100_written, C122_azimuth_refuted, C122_b_refuted, C122_electric, C122_electrode_type_refuted, C122_id_refuted, C122_letter_refuted, C122_magnetic, C122_measurement, C122_number_refuted, C122_remote_refuted, C122_sensor_type_refuted, C122_tilt_refuted, C122_two_runs_refuted, C151_above_middle, C151_estimate, C151_member_refuted, C151_none, C151_one, C151_unknown, C46_cut_is_zero_refuted, C46_monotone, C46_negative_steepness_refuted, C68_phases_idempotent_refuted, C85_average_refuted, C85_channel, C85_constant, C85_constant_filters, C85_disjoint_refuted, C85_ends, C85_first_frequencies_refuted, C85_last_refuted, C85_long_periods_refuted, C85_middle, C85_unit_gain_refuted, C85_windows, C98_file, C98_up_tipper_refuted
