# Design of the formal model of earthquake-impact-utils

The code base is Python (`/repo/impactutils`).  It is read as text only.  The
model is a shallow embedding in Rocq/Coq 8.16.1: one Gallina function per
Python function, branch by branch, with exceptions as values.

## 1. Conventions

* `PyBase.v` holds the shared vocabulary: `exn` (names of the Python exception
  classes the code raises), `res A := Ok a | Err e`, string helpers.
* For each area `X` there are four kinds of files:
  * `XModel.v`  - definitions only, each with a comment citing file and lines;
  * `XSpec.v`   - the independent vocabulary used to state properties (decoders,
    arithmetic characterisations, abstract maps); it never calls model helpers;
  * `XProofs.v` - lemmas;
  * `XProps.v`  - only the property theorems (`exact lemma`), `Print Assumptions`,
    and the non-vacuity `Example`s.
* Loops become structural recursion or recursion on explicit fuel; the
  out-of-fuel value (`Diverge`) is distinguishable from every normal result and
  theorems say when it does or does not occur.
* Floating point.  Where the property is about rounding, the model uses Flocq's
  `round radix2 (FLT_exp (-1074) 53) ZnearestE` on `R` (IEEE binary64 in the
  absence of overflow).  Where the property is geometric, the model computes
  over exact reals `R` (or rationals `Q`/`Z` for tables) and rounding error is
  *not* modelled; this is stated per file.
* External behaviour (shapely containment, pytz offsets, SMTP servers, the file
  system, h5py, the geodetic library) is a parameter of the function or an
  explicit state-machine model; nothing is an axiom.

## 2. Plan per property

| id | modelled code | how it is stated and proved |
|----|---------------|------------------------------|
| C01 | `dec_to_roman`, `_dec_to_roman` | independent subtractive reader `roman_value`; round trip by invariant over the denomination list; canonical-form grammar; error iff out of range |
| C02 | `commify` | regex `^(-?\d+)(\d{3})` as an explicit matcher over strings, loop on fuel; spec: groups of three, strip separators |
| C03 | `commify` | same loop; invariant "still matches" gives divergence for every fuel |
| C04 | `round_to_nearest` (step >= 1) | Flocq rounding of the quotient; half-way points cannot be crossed below 2^52 |
| C05 | `floor_to_nearest`, `ceil_to_nearest` | Flocq rounding; monotonicity and exactness of integers |
| C06 | `pop_round`, `pop_round_short` | composition of C02 and C04 |
| C07 | `dollar_round`, `set_num_precision` | decimal rounding over `Q`/`Z`; unit selection; boundary witnesses |
| C08 | `ElapsedTime.getTimeElapsed` | Flocq error analysis of `round(((n/60.0)-n//60)*60)`; mixed radix |
| C09 | `getElapsedString`, `getTimeStr` | string model over the C08 record |
| C10 | `HistoricTime.strftime` | proleptic Gregorian calendar in `Z`; 400-year periodicity |
| C11 | `Specifier.replace_in` | tokenisation of the format string; independent directive parser |
| C12 | `_get_utm_zone` | over `R` with `Int_part` |
| C13, C14 | `TimeConversion.get_timezone_code` | over `R`; index bounds; clamping |
| C15 | `LocalTime._find_time_zone` | features with oracle containment; first match |
| C16, C17 | `HDFContainer` | group/dataset tree; refinement to five maps over operation histories |
| C18 | `HDFContainerBase` | recursive tree with paths; refinement |
| C19-C22 | ShakeMap containers | state machine; invariants over histories; failure effects |
| C23-C26 | `CopySender` | file system map with crash semantics (every prefix of the step list) |
| C27 | `Sender.__init__`, `get_sender_class` | decision function |
| C28, C29 | `_split_addresses`, `_send_email` | loop on fuel; server oracles |
| C30 | `PDLSender` | textual substitution on strings |
| C31-C33 | `scp.py` | shell lexer as spec; byte streams; directory stack machine |
| C34, C35 | `Cities` | rows as records, filters, stable sort |
| C36 | `limitByMapCollision` | boxes; pairwise disjointness |
| C37 | compass | argmin over table in `R`/`Q` |
| C38 | `draw_scale` argument logic | decision function, argmin |
| C39, C40 | `ColorPalette` | piecewise-linear interpolation over `R` |
| C41 | `Vector` | over `R` |
| C42, C43 | geodetic | over `R` with sin/cos/asin/atan2 |
| C44 | ecef | over `R` |
| C45, C46 | openquake utils | over `R` |
| C47, C48 | distance functions | over `R`; convexity argument |
| C49-C53 | rupture factory / quads / edges | lists of vertices; index arithmetic |
| C54 | slip vector | trigonometric identity over `R` |
| C55-C57 | origin | dictionaries as association lists |
| C58 | ComCat | strings and prefixes |
| C59 | fractional steps of `round_to_nearest` etc. | Flocq rounding of the scaled step; counterexample for inexact scaling |
| C60 | `LocalTime._find_time_zone` | offsets as an arbitrary function of time; constancy hypothesis; counterexample near a change |
| C61 | `EmailSender.send`, `cancel` | delivered messages as a list; prefix of the batches; induction over batches |
| C62, C63, C64 | `triangle_area`, date line fixes, `Point`, `clean_points` | algebra over `R`; case analysis; induction over the points |
| C65, C66 | `rupture/utils.py` vectors and meshes | vector identities over `R`; mesh points as convex combinations |
| C67 | `is_quadrupture_class` | level edges stated on the polygon itself |
| C68 | event files | attributes as a dictionary; write then read |
| C69, C70 | `comcat/query.py` | server as an oracle; list of requests made |
| C71-C73 | documents of ruptures | independent grammar of valid documents; round trips through the constructors |
| C74-C76 | `FTPSender` | every state of the server, whatever the environment does, as an invariant over steps |
| C77-C79 | `SecureSender` | remote shell and pending commands; invariant over all schedules |
| C80, C81 | `fromVertices`, `fromTrace`, `fromOrientation` | corners stated by position; trigonometry of the turned projection |
| C82-C86 | sizes, angles, distances of ruptures | sums, means and minima stated on the corners; counterexamples where the name promises more |
| C87-C90 | `gc2.py` | the weights as integrals; coordinates as weighted means; permutation of the traces |
| C91-C94 | `distance.py`, `base.py`, `point_rupture.py` | dispatch over arbitrary ruptures; interpolation over `R` |
| C95-C99 | `_version.py` | git as an oracle; independent readers of descriptions and of PEP 440 |
| C100-C103 | receiving in `scp.py` | server as any stream; independent description of trees and paths |
| C104-C107 | palette files, ranges, arrays | tables stated by rows; colours by interpolation |
| C108, C109 | written rupture files, outlines | decimal places stated by nearest multiples; reading back |
| C110 | `get_quad_slip` | vectors in the local frame; counterexamples |
| C111, C112 | city files | lines and fields stated by their positions; saving and reading back |
| C113, C114 | mail with attachments | an independent MIME reader gives the parts back |
| C115-C117 | `get_recent_timezone_data` | web, page parser and zip format as oracles; file system trees; frame lemma for the output directory |
| C118, C119 | `MercatorMap` constructor, `drawCities` called repeatedly | the set of distinct longitudes shrinks with each call; interval arithmetic |
| C120 | `get_timezone_code` in binary64 | rounding error of a difference and a quotient |
| C121-C123 | `get_middle_point`, `Point`, `GeographicObjects` | vectors on the sphere; Bessel's inequality for the two ends of a chord |
| C124 | `plane_fit`, `normalized` | the last singular vector is an eigenvector of the least eigenvalue |
| C125 | `line_intersects_itself` | the line and the line rolled by one cover all pairs of sides but one, whose overlap shows elsewhere |
| C126, C127 | version files written by `versioneer.py` | the JSON text is read back by an induction over escaped characters; executing the file reads Python's own escapes |
| C128 | `get_versions`, `get_version`, `get_root` and the configuration in `versioneer.py` | order of the methods as an inductive relation; agreement with the package's `_version.py` |
| C129 | `versioneer.py setup`: `.gitattributes`, `MANIFEST.in`, `__init__.py`, `setup.py` | lines and words stated by positions; idempotence |
| C130 | `sdist`, `build_py`, `version` commands of `versioneer.py` | chains of archives as an inductive relation, over C127 and C128 |
| C131 | `rupture/plotrupture.py` | lines and extents handed to matplotlib; over C109 |
| C132 | columns of the tables of `mapping/city.py`, `mapping/mapcity.py` | association lists; which columns and values a table has afterwards |
| C133 | labels and getters of `mapping/mercatormap.py` | affine axes; boxes of pixels; over C36 |
| C134 | `put`, `_send_files`, `_read_stats`, `_send_time`, `_send_pushd`, `_send_popd`, `_recv_confirm`, progress calls of `extern/scp/scp.py` | script of actions against any answers of a server; met with `get` of C102 |
| C135 | `getNumGroups`, `getNumQuads`, `getDeps`, `getRuptureAsArrays`, `_getGroupIndex` of `rupture/quad_rupture.py` | counts from the lengths of the polygons; arrays; met with the outline of C51 |
| C136 | the objects LocalTime and LocalTimeNE of `time/timeutils.py`: making, `update`, getters | any sequence of updates, failing ones included, over the search of C15 |
| C137 | `__str__`, `__repr__`, `wkt2d`, `__ne__` of `extern/openquake/point.py` | numerals with six and four decimals; printing alike against == |

Every property is expressible.  What is *not* modelled anywhere: drawing
(matplotlib/cartopy/basemap calls), network and process execution themselves
(only their results as oracles), h5py's on-disk format, pandas/numpy internals,
shapely/pyproj geometry, pytz data.

## 3. Trusted base

* Coq's kernel (8.16.1) and the standard library.
* Axioms: only those printed by `Print Assumptions` under each theorem.
  Theorems over `R` depend on the standard library's classical real axioms
  (`ClassicalDedekindReals.sig_forall_dec`, `sig_not_dec`,
  `FunctionalExtensionality.functional_extensionality_dep`, and where used
  `Classical_Prop.classic`).  Flocq adds none.
* The reading of the Python code recorded in each model file's comments.

Details per theorem are in section 6.

## 4. What is modelled and what is not

| code | model file | not modelled / simplified |
|------|-----------|---------------------------|
| `textformat/text.py` | `TextModel`, `RoundModel` | the text of a float (`"%f"`, `str(float)`) is taken as an input string |
| `time/timeutils.py` | `ElapsedModel`, `HistoricModel`, `ZoneModel` | pytz offset data and shapefile geometry are oracles; raster file reading; locale data is a parameter; no time zone arithmetic beyond the offset |
| `io/container.py`, `io/smcontainers.py` | `HdfModel` | h5py's file format; pandas internals (a table is a list of columns); numpy dtypes; compression |
| `transfer/sender.py`, `factory.py` | `SenderModel` | - |
| `transfer/copysender.py` | `CopyModel` over `FsModel` | permissions, links, disk full; two processes writing at the same time |
| `transfer/emailsender.py` | `EmailModel` | MIME encoding (see MimeModel); the server is an oracle per connection |
| `transfer/pdlsender.py` | `PdlModel` | the PDL process itself (output is an oracle) |
| `extern/scp/scp.py` | `ScpModel` | `T` messages, socket timeouts, progress callbacks; for receiving see below |
| `mapping/city.py` | `CityModel` | pandas and the geonames reader (a table is a list of rows); the geodesic distance is a parameter; `renderToMap`, `__repr__` |
| `mapping/mercatormap.py` (choice of labels) | `CollideModel` | text extents come from the renderer (oracle); projections, shadows and fonts |
| `mapping/compass.py` | `CompassModel` | - |
| `mapping/scalebar.py` | `ScaleModel` | matplotlib drawing calls; font metrics (heights are inputs); the cosine is a parameter |
| `colors/cpalette.py` | `ColorModel` | see below for `fromFile`, the `vmin`/`vmax` setters and arrays of values; matplotlib's table of colours is modelled, the logarithm is a parameter |
| `vectorutils/vector.py` | `VecModel` | exact real arithmetic, no rounding; overflow and NaN (a zero vector normalises to NaN) |
| `vectorutils/ecef.py`, `extern/openquake/geodetic.py`, `utils.py`, `point.py` | `GeoModel` | exact real arithmetic; trigonometric functions are the real ones, the sign of zero is ignored in `arctan2`; numpy broadcasting (one point at a time); shapely, rtree, `plane_fit`, `point_to_polygon_distance`, `line_intersects_itself`, `point_at`, meshes |
| `rupture/utils.py`, distances of `rupture/quad_rupture.py` | `RuptModel` | exact real arithmetic; one site at a time; quadrilaterals with a degenerate normal (NaN in the code) give `NotModelled`; `get_quad_slip` |
| polygons and text files of `rupture/factory.py`, quadrilaterals and outlines of `rupture/quad_rupture.py`, edges of `rupture/edge_rupture.py` | `PolyModel` | exact reals for coordinates; `float()` of a word is an oracle; the lines of a file are given (`readlines`), decoded as latin-1; longitude, latitude and depth arrays are one array of points; group indices are natural numbers; metadata other than the reference, meshes and file names |
| `rupture/origin.py` (`Origin`, `setMechanism`, `read_source`, `read_event_file`, `write_event_file`, `fromFile`) | `OriginModel` | values are None, a text, an integer, a float or another hashable object (a time); `float()`, `int()`, number formatting and time parsing and formatting are oracles; integers are exact (no overflow on conversion); XML is a dictionary of attributes (syntax, escaping and characters XML forbids are left out); attributes with special names and `getHypo` are left out |
| documents in `rupture/factory.py` (`validate_json`, `get_rupture`, `rupture_from_dict`, `rupture_from_dict_and_origin`), constructors of the ruptures | `FactoryModel` over `JsonModel` | `json.loads`, `float()`, time parsing and formatting and `_computeStrikeDip` are oracles; vertices are three finite numbers; metadata are None, texts and numbers; the document given is not shared with the caller (it is changed in place); logging |
| `transfer/ftpsender.py` | `FtpModel` | the server is a tree with a current directory; each command is carried out, refused (550 or another error) or carried out with the answer lost, as the environment decides; pieces of a transfer are arbitrary; local files do not change during a call; login names, messages, cancel files with a slash in the name are left out; the remote directory has no `..` part in the theorems |
| `transfer/securesender.py` | `SecureModel` | `exec_command` only starts a command: the session keeps the commands started, and the environment decides which are carried out before each step, in what order, or never; only a read of the output waits; the shell is modelled for words of ordinary characters, `;`, `>`, `$?` and the commands `[`, `echo`, `rm`, `mkdir -p`, `mv`, everything else is up to the environment; one command line is not interrupted by another; each step works, is refused, or is carried out with the answer lost; `scp.put` writes in arbitrary pieces to the path itself (its name is quoted by the SCP client), into it if it is a directory; local files do not change during a call; login, keys and messages are left out; the path of a remote file is that of `CopyModel` |
| `fromVertices`, `fromTrace`, `fromOrientation` of `rupture/quad_rupture.py` | `BuildModel` | exact reals; `get_middle_point` and `point_at` of openquake are parameters (the vendored `geodetic` has no `point_at`, so the vendored `get_middle_point` raises AttributeError for two different points); group numbers are natural numbers; a lower corner outside the disc of the projection is NaN in the code and NotModelled here; metadata |
| `rupture/quad_rupture.py` 81-196, 685-772 and `rupture/edge_rupture.py` 183-274, 375-487, 522-674 | `SizeModel` | exact reals, nan as None; one site at a time; `get_middle_point` of openquake is a parameter in `getDepthAtPoint`; a mesh spacing of zero is NotModelled |
| `rupture/gc2.py` 17-371 | `Gc2Model` | exact reals, nan as None; one site at a time; the middle of the projection is a parameter; group numbers are naturals and the int16 cut of positions is left out; deep copies mean that the rupture itself is not changed, and depths set to zero on the copies are modelled by `at_surface` |
| `rupture/distance.py`, `rupture/base.py` 139-215, `rupture/point_rupture.py` 68-296 | DistModel | All of get_distance, Distance, getRuptureContext, computeRhyp/Repi, PointRupture's sizes and distances. Arrays and what ruptures compute are abstract in the dispatch; ps2ff's single_event_adjustment is an arbitrary function giving the table; scipy's linear interp1d is modelled (values over exact reals); openquake's geodetic.distance is taken to be the vendored one; the order of a set is an arbitrary function. deepcopy, the file and plotting methods and the GeoJSON of the constructor are not modelled. |
| `_version.py` | VersionModel | All of it, with the settings of get_config. What git does (or its absence) is an arbitrary function of directory and arguments; int() of a text is an arbitrary function. The search for the description is modelled by reading from the end (the pattern can match in one way only). Texts are latin-1; UnicodeDecodeError, printing when verbose and Windows are left out. realpath is taken to give the path. |
| `extern/scp/scp.py` 160-214, 329-472 | GetModel | get, close, _open and the receiving side. A channel delivers pieces, or a silence longer than the timeout; after the last piece it is closed. A channel takes one command (a second one raises). Paths are resolved by their text (no links); modes (before the umask) and times are kept as a list of what was done. int() and int(, 8) of bytes are arbitrary functions. What is sent to the server, progress, Windows, texts of messages and permissions of the local file system are left out. str and bytes paths are not told apart. |
| `colors/cpalette.py` 206-260, 304-387 | PaletteModel | fromFile, the setters, arrays of one dimension. pandas.read_csv is modelled for tables whose rows are as long as the first and whose columns are numbers; comments after blanks, quotes, missing fields and texts are NotModelled. int(), float() and the numbers pandas reads are arbitrary functions. An empty range that was set later is NotModelled; arrays of two dimensions and setting one end on a palette of another type of number are left out. |
| `rupture/quad_rupture.py` writeTextFile; `rupture/edge_rupture.py` lons, lats, depths | WriteModel | the file is its list of bytes (UTF-8, as on Linux); numbers are real and formatted to the nearest four decimals, ties to even; reading is text_to_json of FactoryModel with any reading of numbers that is right for such decimals |
| `rupture/utils.py` get_quad_slip | SlipModel | real numbers; openquake's get_middle_point is a parameter |
| `mapping/city.py` fromGeoNames, getCities | GeonamesModel | the text of the file as latin-1; float() and int() are parameters; infinite coordinates are left out |
| `mapping/city.py` save, fromCSV | TableModel | pandas' to_csv and read_csv without options are modelled: quoting, names of columns, missing texts, types of columns; how floats are shown and read is a parameter; fields with line breaks, rows of different lengths, names twice and columns of truth values with missing ones are NotModelled |
| `transfer/emailsender.py` _get_encoded_message, plain messages of send | MimeModel | the message is its list of lines; folding and encoding of header fields, and the date, are left out; UTF-8, guess_type and the files are parameters; the boundary is a parameter that is no line of the texts (the generator takes care of that) |
| `comcat/query.py` | `ComcatModel` over `JsonModel` | the server and `json.loads` are oracles; the texts of numbers in URLs are arguments; warnings and timeouts; a time that is not an integer; the exception for a time outside years 1-9999 is ValueError; the encoding of the file written by `getShakeGrid` |
| `time/timeutils.py` get_recent_timezone_data | `TzdataModel` over `FsModel` | web, HTML parser, urljoin, decoding and the zip format are oracles; zipfile's extract, normpath and shutil.move are modelled; rmtree is one step; permissions and links |
| `mapping/mercatormap.py` constructor (cities, central longitude), calls of `drawCities` | `MapModel` over `CityModel`, `CollideModel` | exact reals for the middle; the labels' extents are the same at each call; figures, axes and fonts are left out |
| `time/timeutils.py` get_timezone_code in binary64 | `RasterModel` over `ZoneModel` | overflow and not-a-number |
| `extern/openquake/utils.py` get_middle_point, GeographicObjects; `point.py` methods | `MiddleModel` over `GeoModel` | exact reals; point_at, intervals_between (installed openquake) and rtree's nearest are parameters; the branch without rtree (min_idx_dst) and to_polygon are left out |
| `extern/openquake/utils.py` plane_fit, normalized | `PlaneModel` | exact reals, points as a list; `numpy.linalg.svd` is a parameter |
| `extern/openquake/utils.py` line_intersects_itself | `SelfModel` over `MiddleModel` | exact reals; `LineString.is_simple` is a parameter |
| `versioneer.py` (version files, get_root, the configuration, get_versions, get_version, the files changed by setup, scan_setup_py) | `PackModel` over `VersionModel` | texts are latin-1 (json escapes what is not ASCII as `\u00xx`); the JSON reader is for flat dictionaries of texts, truth values and null, anything else is NotModelled; ConfigParser is a function from options to texts; the git handlers are textually those of `_version.py`; VERSIONEER_ROOT warnings, `git add` and the template of `_version.py` are left out |
| `versioneer.py` (commands sdist, build_py, version) | `ReleaseModel` over `PackModel` | what distutils copies is a parameter; a version dictionary with other keys than the five is NotModelled; build_exe (cx_Freeze, py2exe) is left out |
| `rupture/plotrupture.py` | `PlotModel` over `PolyModel`, `WriteModel` | what is handed to matplotlib: lines and extent; labels, background and coast lines are left out; the coordinates of a PointRupture are Python floats |
| `mapping/city.py` (construction, getColumns, sortByColumns, project, getCities, choice of rows), `mapping/mapcity.py` | `SheetModel` | a table is its columns in order; the index of the rows and the types of the values are left out; the list of fonts is a parameter |
| `mapping/mercatormap.py` (renderRow, getCityEdges, getters) | `LabelModel` over `CollideModel` | exact reals; axes are a scale and an offset in each direction; the projection and the sizes of the texts in pixels are parameters; shadows and fonts are left out |
| `extern/scp/scp.py` 121-158, 216-336 | `PutModel` over `ScpModel`, `GetModel` | os.stat, open and os.walk are functions, constant during a call; times are whole seconds; sending itself never fails; Windows left out |
| getters of `rupture/quad_rupture.py` 867-875, 975-1014 | `CountModel` | over `PolyModel`; exact reals, nan as None; the mesh of openquake (getRuptureAsMesh) is left out |
| `LocalTime.__init__`, `update`, getters (and `LocalTimeNE`) of `time/timeutils.py` | `ClockModel` | over `ZoneModel`; the shape file is a function of the place; `__del__` (closing the file) is left out |
| `Point.__str__`, `__repr__`, `wkt2d`, `__ne__` of `extern/openquake/point.py` | `PrintModel` over `GeoModel`, `WriteModel` | exact reals without a negative zero; the text of a float in wkt2d is a parameter; to_polygon (Polygon of openquake) is left out |

## 5. Findings (places where the natural statement is false of the code)

Text and numbers: `commify` with an empty separator never returns and with a
separator made of digits raises `re.error`; `dollar_round(1e6, style='long')`
gives `0.001 billion`; 999,950 dollars becomes `$1000K`; for fractional steps
`round_to_nearest(0.29, 0.29)` is 0.28.

Time: `getTimeStr(.., 'second')` says `year`; `HistoricTime.strftime` raises
NameError for locale dependent directives, and `%F %G %C` show the replacement
year; the raster lookup east of the antimeridian clamps; `to_localtime` ignores
the rounding method; `LocalTime` falls back to a name and offset of another type.

Containers: names with a leading slash escape their group; a failed `setConfig`
or `setRuptureDict` destroys the old value; a failed `setIMTArrays` fixes the
container type; a failed write leaves the IMT listed; `setIMTGrids` ignores the
compression flag; `dropIMT` removes the IMT from all components and succeeds
for unknown IMTs; `setArray` with bad metadata leaves the dataset behind.

Transfer: a relative remote directory is used below `/`; a repeated directory
name collapses the remote path; a failed send removes the cancel marker;
directories given twice are counted twice; a missing local directory gives
NameError, as does `addFiles`; `_split_addresses` never ends for a batch size
of one or less; a fail-over after partial delivery delivers twice, and refused
recipients go unnoticed; the Bcc header is part of the message; a directory
without files and the zip option fails; PDL: output that cannot be decoded
raises after the product has been sent, values containing bracketed words are
substituted again.

scp: an empty path or a leading tilde is not one literal word; a leading dash
is an option; a file that shrinks while being sent, and a channel that closes
early, loop forever; a file that grows corrupts the stream; a directory with a
slash at the end is sent under an empty name; sending `/` never ends; names with
newlines can collide.

Mapping: the grid of `limitByGrid` loses cities at the northern and eastern
edge through rounding and repeats cities on inner edges; data on one meridian
or parallel gives nothing; `limitByRadius` overwrites and drops a column called
`dist`; `sortByColumns` always raises TypeError (C132_sort_refuted); the first city is kept even
when its label is off the map, and a city may be removed because of one that is
itself removed; `get_compass_dir` ignores its format argument and gives N for
every azimuth above 360; `draw_scale` with a bar length always raises
UnboundLocalError; on a map less than four units wide the bar is longer than
the map.

Colours: the length check `len(z0) != len(z1) != len(rgb0) != len(rgb1)` refuses
only when three inequalities hold (the packaged topography palette has eleven
lower and ten upper values); of the upper values only the greatest and last
matter; an unordered palette is built and raises ValueError at the first look-up;
the table is sampled at i/(N-1) and read at floor(v N), so that listed colours
are not shown for their values (intensity 5); the format `array` for one number
gives 1020 zeros and ones.

Vectors and geodesy: `*` accepts text that `float` can read; the bounding box of
points exactly 180 degrees apart raises ValueError although the description says
more than 180, and points at -180 and 180 give a box around the globe; two
points are equal when at most a metre apart, which is not transitive;
`fix_bounding_box_idl(bb, True)` returns None when an edge is at 0 and the
complement of the box when the box spans 0.

Ruptures: `is_quad` compares the third corner with the plane through the first
three corners, so it accepts everything; a plane through the centre of the Earth
is at distance 0 from every point; the "unit" slip vector has squared length
1 + sin(2 rake) cos(dip) sin(2 strike), which may be 0 or 2; Rjb counts the height
or depth of the site outside the projection of the rupture; an exactly vertical
quadrilateral has a degenerate projection, and its Rjb depends on the sign bits of
NaNs.

Rupture files: a group with a single vertex disables the repair of all polygons
(every one is put back as it was read, and unless all are valid the file is
refused); coordinates separated by a comma and a blank are always refused; a group
that is not closed raises a bare Exception; a file of comments is accepted without
polygons.  Correcting the third corner of each quadrilateral separates the lower
corners of neighbours.  The outline of a rupture whose quadrilaterals were turned
round misses a vertex and visits another three times.  A degenerate quadrilateral is turned
round.  `EdgeRupture.getQuadrilaterals` repeats the first group's quadrilaterals for
the later groups (C52_later_refuted).

Origins: a refused event may already have lost its `type` (C55_type_lost_refuted); the
constructor does not check the range of `rake`; the mechanism ALL means rake 0 in the
constructor and 45 in `setMechanism`, which accepts rakes up to 540 degrees, not the
documented 360.  Not-a-number passes every range check.  A blank line in a source file
raises IndexError; `=` in a value cuts it.  Event files with separate year, month, …
attributes raise AttributeError (`HistoricTime.datetime` does not exist), so the
"old event file" branch never works (C68_old_refuted).  `fromFile` with a moment file
always fails: `read_moment_quakeml` is not defined (C68_moment_refuted).  `write_event_file` does not
write `type`, so an event with only a `type` loses its mechanism.

ComCat: after a 503 the second attempt is never made, `time` not being imported
(C69_retry_refuted); any other HTTP error makes the download return None, so that
`getShakeGrid` empties its file before failing (C69_grid_refuted) and GeoServe raises TypeError.
`getRegions` keeps the `metadata` it says it omits.  Sources are guessed from prefixes:
an id whose code continues the name of another source gets that one, an id without a
source gets the first (C58_ambiguous_refuted, C58_unmatched_refuted).  Times before 1970 are rounded up.

Rupture documents: JSON given as a file object is never read as JSON
(C72_object_refuted); of a JSON rupture that is not valid the reason is lost, the file
being read again as text and reported as an unknown format (C72_not_json), as is a
missing file.  Text files may give an EdgeRupture although the documentation says they
always give a QuadRupture.  The reference of a document is lost for a Point, and
overwritten by the origin's for quadrilaterals but not for edges (C72_reference).  A
document of quadrilaterals with `mesh_dx` in its metadata comes back as edges
(C73_mesh_refuted).

FTP: a file of the directory that cannot be sent is skipped without an error, against the
documentation (C75_missing_refuted).  A relative remote directory is taken from the
server's root; then no file of the directory is counted, although all are sent
(C75_relative_refuted), and cancel fails or puts the marker elsewhere
(C76_relative_refuted).  All failures of send end in NameError, `host` being undefined
(C76_name_error).  Sending does not remove the cancel marker (C76_marker_stays).  The
connection is left open by cancel and by failed sends.

SSH: the renaming commands are not waited for and their results not looked at, so send
reports success before the files are in place, or when they never will be
(C78_early_refuted), and names with a blank stay under the temporary name
(C78_blank_refuted); a directory of the file's name swallows it (C78_swallowed_refuted).
A file listed twice within a second can be published half-written (C77_twice_refuted).
The names go to the remote shell as they are (C77_injection_refuted).  A file of the
remote directory's name is removed (C77_obstacle_refuted).  The test for the new
directory can overtake `mkdir` (C78_slow_refuted), that for the marker `echo`
(C79_slow_refuted), and an old marker passes for a new one (C79_stale_refuted).
With a relative remote directory listed files go below the home directory, others
below the root (C78_relative_refuted).

Constructors: of the left corners only those of the first patch of a group are used, so
a gap within a group is closed without notice (C80_gap_refuted).  fromTrace checks the
number of group numbers nowhere: too few silently drop rows, too many fail
(C81_index).  fromOrientation takes the absolute value of dy sin(dip), so a known point
above the top edge gives the wrong depth.

Sizes and angles: getArea is too great for quadrilaterals that narrow with depth
(C82_area_refuted).  getStrike is nan when the upper edges have no length; getWidth and
getDip divide by zero without quadrilaterals.  The depth to the top of an edge rupture
looks at the upper edges only.  The width of an edge rupture divides an area on the
ellipsoid by a length on the sphere.  An edge rupture that is upright as a whole is
reported with dip 0 and strike nan (C84_upright); vertices within 0.001 degrees of the
pole or above 7.848 km, which are accepted elsewhere, are refused (C84_refused).
computeRjb of an edge rupture does not vanish above it (C85_rjb_inside_refuted).
getDepthAtPoint mixes metres and kilometres, so it is right only for upper edges at
depth zero (C86_depth), and gives nan for upright quadrilaterals (C86_upright).

GC2 coordinates: on a segment U is set to zero and the weights gathered so far are
overwritten (C88_on_trace, C88_along_refuted).  With several traces the places compared
are the beginning of the last segment and the end of the first segment of the later
trace, not its ends (C90_farthest_refuted).  Edge ruptures in two or more parts always
fail with IndexError because their group index counts vertices (C90_edges); so do traces
whose numbers leave a gap (C90_gap).  Traces that cancel out all begin at zero
(C89_several with E = 0).  ry0 is measured from the end of the segment listed last
rather than from the farthest (C89_several).  A segment without length makes T, U, rx
and ry nan but ry0 zero (C87_degenerate).

Distances: `Distance` without a rupture (the default) is always an AttributeError.
get_distance sets the rupture's mesh spacing before its arguments are checked, so a
refused call changes the rupture (C91_mesh); Distance puts 0.5 on ruptures that have no
mesh.  Epicentral distance includes the site's depth, so it can exceed hypocentral
distance (C94_closer_refuted) and a site at the epicentre but at depth d has distance d.
In the two known regions an origin with another mechanism (possible only when mech is set
as an attribute) fails with UnboundLocalError (C93_unbound).  The mech branches of
getRuptureContext are never reached with an Origin, whose rake is always set; so a context
never has rake None, though RAKEDICT says so for ALL (C94_origin).

Versions: "pep440-pre" hides changed files (C96_pre_hides_changes_refuted).  A tag with a
plus sign can look like a later state of another (C96_plus_refuted); a tag that is the
prefix alone is shown as untagged (C96_bare_tag_refuted).  After a post-release tag the
versions are invalid (C97_post_tags_refuted).  In an archive of an untagged commit a
branch with a digit becomes the version (C98_branch_refuted); of two tags the smaller
text is taken, 1.0 rather than 2.0 (C98_latest_refuted).  get_versions raises when git
fails half way (C99_default_refuted).

Receiving over scp: the names a server sends are used as they are, so it can write any
file (C101_anywhere); "..", an unmatched end of a directory, or a second item next to a
new local path leave the local path too (C101_refuted, C101_beside_refuted).  A file name
ending in a blank is changed (C102_blank_name_refuted), an access time of 0 is replaced
(C102_epoch_refuted).  If the connection ends within a file, get loops for ever
(C103_hangs).  A failed get leaves the client unusable until close (C103_spoilt), and
then with stale times (C103_stale_refuted), also of directories of the failed transfer: the next one
sets them wherever they are, and fails if they are gone (C103_stale_directory_refuted).

Palette files: the example in the documentation of fromFile does not get the colour
written there (C104_documented_refuted; entry 50 of 300 is at 50/299 of the range).  A name
ends before a second colon (C105_colon_refuted) and lines like "#$names ..." are
definitions (C105_begins_refuted).  Setting vmin or vmax keeps the number of colours, so
the resolution asked for is lost (C106_resolution_refuted).

Written rupture files: writeTextFile puts the latitude first, which is the old format, but
get_rupture reads the new one unless told otherwise, so that longitudes and latitudes come
back exchanged (C108_default_refuted).  A rupture with a level quadrilateral is written to
a file that can not be read (C108_level), and references with line breaks or accents do
not survive (C108_reference_refuted).

Slip vectors: get_quad_slip takes the upward component of the local slip for a depth, so
reverse slip points down (C110_up_refuted), and the horizontal component of slip up the
dip has the opposite sign to that of the hanging wall (C110_east_refuted).

GeoNames: a blank line in the file is an IndexError (C111_blank_refuted), and if a
downloaded file can not be read its folder stays (C111_web_refuted).  sortByColumns is not
modelled: it calls `self._dataframe.columns()`, and raises TypeError whatever is asked.

Saved tables: the row labels come back as a column "Unnamed: 0" (C112_same_refuted),
country code "NA" is read as missing (C112_namibia_refuted), and a column of names that
are all numbers becomes a column of numbers (C112_retyped_refuted).

Mail with attachments: the part with the text is marked 7bit whatever the text is, so a
text that is not ASCII can be sent alone but with an attachment smtplib raises
UnicodeEncodeError, which is reported as a failed connection to every server
(C114_refuted).  Line ends of text attachments are changed (C113_newlines_refuted).  Files
of the same name in different folders arrive under the same name (C113_names_refuted).

_copy_file_with_path of the FTP sender without a local folder always raises NameError
(C76_no_folder).

Time zone data: if no link of the release page is the archive, the last link of the page is
downloaded instead of raising the error meant for this (C115_unnoticed_refuted).  The folder of
the last entry is removed with everything in it: for an archive without a folder this is the
output directory itself, and the result names a file that was deleted (C117_flat_refuted); an
absolute name removes a directory anywhere (C117_anywhere_refuted).  Explicit entries for folders
raise shutil.Error (C117_folder_entry_refuted) and an empty archive UnboundLocalError
(C117_empty).

Maps: drawCities replaces the object's cities with the ones it drew, and the grid always drops the
cities on the western and southern edge of the table, so each call draws fewer cities than the one
before and in the end none (C118_again_refuted).  A map across the date line has no cities
(C119_date_line_refuted), and one that ends at an eastern longitude is centred on the wrong side
of the globe (C119_middle_refuted).
Raster lookups: in binary64 a place can be read from the neighbour of its cell
(C120_cell_refuted), but only within 2^-42 degrees of the edge (C120_cell).  This removes the
assumption of exact index arithmetic from C13.

Nearest objects: with rtree, get_closest compares distances on the orthographic map, which shrink
towards its edge, so it can return an object farther away than another one
(C123_nearest_refuted: objects at 60 W, 0 and 60 E on the equator and a place at about 26.7 E).

Lines: the docstring of line_intersects_itself says that a line which ends where it starts
intersects itself, but such a line is simple and the answer is False (C125_closed_refuted).

Version files: versions_from_file (used by setup.py of a distribution) and the written file itself
(used by the installed package) can disagree.  The JSON text is put between triple apostrophes
without escaping, so a version with a quotation mark makes the package raise, one with a backslash
tells another version, and three apostrophes end the text and what follows is program text
(C127_other_texts_refuted).  git allows quotation marks and apostrophes in tags.

"versioneer.py setup" appends to files without looking whether they end with a newline: the line
is glued to the last one, the file is not marked, and in MANIFEST.in a file that was included is
lost (C129_glued_refuted).  A line for a file with a longer name counts as the mark.

`map_rupture` removes the separators before it plots, so the outlines of separate groups are joined by a
line (C131_joined_refuted), and a rupture across the date line asks for a map beyond both -180 and 180
(C131_date_line_refuted).  Its buffers from the size of the rupture are computed and then overwritten.  Both
plots raise TypeError for a PointRupture (C131_refused).

Rasters across the 180th meridian: places inside are looked up at the edges only (C120_dateline).

Labels: collisions are looked for on hidden axes that fill the figure, while the map is drawn on axes of the
given dimensions; on smaller axes labels that were found apart cover each other (C133_smaller_refuted).
`getAxesClone` always raises AttributeError (C133_clone_refuted).

`put` with preserve_times sends the times of a file before it opens it: if it cannot be opened, times without a
file have been sent (C134_times_alone_refuted).  For a file that grows, the progress function is called with a
position beyond the size (C134_beyond_refuted).  After a put that failed, the client cannot be used until it is closed
(C134_spoilt).

**Counts of a rupture of quadrilaterals.**  A polygon with one vertex on each edge passes the checks and is in the arrays of
getRuptureAsArrays with its not-a-number, but it is cut into nothing, is not counted by getNumGroups and has no outline
(C135_thin_refuted).

**Objects for the local time.**  getTimeZone reads an attribute that is never set and always raises AttributeError
(C136_zone_refuted).  After an update that raises, the object keeps the new instant and place beside the old local time
(C136_stale_refuted).  Outside all zones getUTCOffset is a number of hours, not a timedelta as documented
(C136_hours_refuted).

**Printed points.**  Points that print alike are equal to ==, but equal points may print differently
(C137_equal_refuted).

## 6. Assumptions per theorem (output of Print Assumptions)

- none (closed under the global context):
  C01_roman_correct, C01_roman_injective, C02_commify_grouping, C02_commify_integer,
  C02_commify_strip, C02_decimal_text, C02_grouping_unique, C03_commify_digit_separator,
  C03_commify_empty_diverges, C03_commify_empty_short, C04_nearest_unique, C09_time_str,
  C09_time_str_unknown, C100_inside, C101_anywhere, C101_beside_refuted, C101_refuted,
  C102_blank_name_refuted, C102_epoch_refuted, C102_renamed, C102_tree, C103_hangs, C103_ready,
  C103_refused, C103_spoilt, C103_stale_directory_refuted, C103_stale_refuted, C105_begins_refuted,
  C105_colon_refuted, C106_restored, C108_reference, C109_outline, C10_assertion,
  C10_equivalent_year, C10_locale_detection_refuted, C10_locale_formats, C10_modern,
  C10_other_year_directives_refuted, C10_rendering, C111_lines, C112_blank, C112_namibia_refuted,
  C112_newline, C112_same_refuted, C112_saved, C112_shape, C113_fails, C113_message,
  C113_names_refuted, C113_newlines_refuted, C113_unique, C114_plain, C114_refuted, C114_send,
  C115_first, C115_missing, C115_others, C115_page, C115_unnoticed_refuted, C116_unpacked,
  C117_anywhere, C117_anywhere_refuted, C117_empty, C117_flat, C117_flat_refuted, C117_folder_entry,
  C117_folder_entry_refuted, C117_outside, C117_removed, C11_replace_tokens, C11_unchanged,
  C126_ascii, C126_between, C126_layout, C126_missing, C126_readback, C126_unmarked, C127_escapes,
  C127_imported, C127_other_texts_refuted, C128_agrees, C128_config, C128_distribution, C128_item,
  C128_order, C128_root, C128_unconfigured, C129_again, C129_attributes, C129_glued_refuted,
  C129_init, C129_manifest, C129_scan, C130_archive, C130_installed, C130_not_built, C130_shown,
  C130_tree, C132_cities, C132_fonts, C132_limit, C132_map_cities, C132_project, C132_project_sizes,
  C132_required, C132_sort_refuted, C133_clone_refuted, C133_each, C133_getters, C134_announced,
  C134_arrives, C134_beyond_refuted, C134_dir, C134_file, C134_gone, C134_granted, C134_missing,
  C134_mode, C134_prefix, C134_progress, C134_refused, C134_spoilt, C134_times_alone_refuted,
  C134_tree, C134_up, C134_with, C135_order, C135_recovered, C137_wkt, C137_wkt_text,
  C13_first_name, C13_index, C13_missing_code, C13_required_arguments, C15_empty,
  C16_absolute_names_refuted, C16_five_maps, C16_json_form, C16_last_set_wins, C16_plain_values,
  C16_slash_names_refuted, C17_drop_then_set, C17_failed_set_stores_refuted, C17_missing,
  C17_second_set, C18_paths, C18_set_get, C19_never_both, C19_other_family, C19_type_stable,
  C19_type_values, C20_components_total, C20_drop, C20_failed_write_listed_refuted, C20_history,
  C20_inverse, C20_listed_stored, C20_pairs, C20_stored_listed, C21_mismatch, C22_last_set_wins,
  C22_never_set, C22_rejected, C23_every_state, C23_whole_files, C24_directory_files,
  C24_listed_files, C24_no_other_file, C24_outside, C24_relative_refuted, C24_repeated_name_refuted,
  C24_succeeds, C25_count, C25_count_listed, C26_failed_send_refuted, C26_marker, C27_accepts,
  C27_factory, C27_factory_other, C27_later, C27_missing_directory, C27_missing_file,
  C27_missing_property, C27_no_properties, C27_not_a_list, C27_required, C28_batches, C28_fuel,
  C28_individual, C28_never_ends, C29_failover, C29_once, C29_refused_refuted, C29_twice_refuted,
  C30_brackets_refuted, C30_cancel, C30_one_file, C30_send, C30_undecodable, C31_dash_refuted,
  C31_empty_refuted, C31_get, C31_put, C31_tilde_refuted, C31_word, C32_bad_end, C32_closed,
  C32_grown_refuted, C32_newline, C32_received, C32_sent, C32_shrunk, C33_newline_refuted,
  C33_recursive, C33_root, C33_slash_refuted, C34_constructor, C38_parts, C41_tuple,
  C50_comma_blank, C51_outline_turned, C53_again, C53_arrays, C53_build, C53_read, C53_single,
  C57_accepts, C57_errors, C57_order, C57_values, C58_ambiguous_refuted, C58_guarantee, C58_ids,
  C58_ids_only, C58_sources, C58_unmatched_refuted, C60_steady_offset, C61_archive, C61_attachments,
  C61_bcc_visible_refuted, C61_cancel, C61_send, C68_old_refuted, C68_reads, C68_refused,
  C69_authoritative, C69_comcat, C69_download, C69_geoserve, C69_grid_file, C69_grid_lost,
  C69_grid_refuted, C69_grid_url, C69_metadata_refuted, C69_retry_refuted, C70_getters,
  C74_every_state, C74_outside, C74_whole_files, C75_all, C75_count, C75_listed,
  C75_missing_refuted, C75_relative_refuted, C75_succeeds, C76_cancel, C76_marker_stays,
  C76_name_error, C76_no_folder, C76_relative_refuted, C76_succeeds, C77_every_state,
  C77_injection_refuted, C77_obstacle_refuted, C77_outside, C77_twice_refuted, C77_whole_files,
  C78_blank_refuted, C78_count, C78_early_refuted, C78_in_place, C78_relative_refuted,
  C78_slow_refuted, C78_succeeds, C78_swallowed_refuted, C79_slow_refuted, C79_stale_refuted,
  C79_states, C79_succeeds, C79_success, C91_accepts, C91_answer, C91_mesh, C91_none, C91_order,
  C91_refused, C93_gc2, C95_commands, C95_one_reading, C95_pieces, C96_bare_tag_refuted,
  C96_default, C96_description_back, C96_error, C96_missing, C96_pep440_faithful, C96_plus_refuted,
  C96_pre_hides_changes_refuted, C96_shown, C96_some_text, C96_unknown_style, C97_git_styles,
  C97_post_tags_refuted, C97_valid, C98_branch_refuted, C98_latest_refuted, C98_order,
  C98_read_back, C98_read_nothing, C98_release_first, C98_version, C99_default_refuted,
  C99_directory, C99_errors, C99_git, C99_keywords, C99_no_file, C99_nothing, C99_own_keywords,
  C99_parent, C99_parent_only
- `ClassicalDedekindReals.sig_forall_dec`:
  C111_blank_refuted, C111_fails, C111_read, C111_web, C111_web_refuted, C131_wires, C68_round_trip,
  C68_writes, C94_context, C94_key
- `ClassicalDedekindReals.sig_forall_dec`, `FunctionalExtensionality.functional_extensionality_dep`:
  C104_documented_refuted, C104_reads, C104_refused, C105_bad, C105_last, C106_ends, C106_log,
  C106_resolution_refuted, C106_stretched, C107_each, C107_empty, C107_no_format, C108_again,
  C108_default_refuted, C108_level, C108_old, C108_places, C108_reference_refuted,
  C112_retyped_refuted, C118_total, C119_cities, C119_date_line, C119_date_line_refuted,
  C119_middle, C119_middle_refuted, C120_exact, C122_between, C122_refused, C122_surface, C124_best,
  C124_error, C124_few, C124_flat, C12_band, C12_periodic, C12_range, C131_date_line_refuted,
  C131_extent, C131_joined_refuted, C131_nothing, C131_path, C131_refused, C133_apart, C133_offset,
  C133_smaller_refuted, C136_answers, C136_hours_refuted, C136_latest, C136_new, C136_stale_refuted,
  C136_update, C136_zone_refuted, C137_numeral, C137_text, C13_bad_method, C13_clamped,
  C13_containing_cell, C13_conversion_ignores_method, C13_inside_raster, C13_offsets, C13_roundtrip,
  C13_unknown_zone, C14_edge_columns, C15_fallback, C15_first_feature, C15_natural_earth,
  C15_natural_earth_fallback, C15_nautical, C34_commute, C34_filter, C34_get_bounds, C34_idempotent,
  C34_many, C34_radius_column_refuted, C34_refuses, C35_cells, C35_errors, C35_exact_cover,
  C35_exact_once, C36_disjoint, C36_draw, C36_empty, C36_largest, C36_off_map_refuted,
  C36_removed_by_removed_refuted, C36_survivors, C37_errors, C37_nan, C38_bars, C38_corner,
  C38_errors, C38_fits, C38_given_length_fails, C38_labels, C38_units, C39_from_map, C39_gaps,
  C39_grey, C39_interpolates, C39_listed_refuted, C39_log, C39_seamless, C39_unordered, C40_check,
  C40_index, C41_linear, C46_box, C46_complete, C46_extent, C46_half_refuted, C50_check,
  C50_lone_vertex, C50_rotate, C50_text_asis, C50_text_errors, C50_text_repaired, C50_text_sound,
  C52_actual, C52_count, C52_errors, C52_first, C52_later_refuted, C55_accepts, C55_attributes,
  C55_dictionary, C55_errors, C55_rake_refuted, C55_type_lost_refuted, C56_bands, C56_defaults,
  C56_opposite, C60_near_change_refuted, C63_bounding, C63_bounding_refuted, C63_cross, C63_lons,
  C64_point, C66_centre, C68_from_file, C68_moment_refuted, C71_errors, C71_valid, C82_top, C83_top,
  C92_accepts, C92_context, C92_refused, C93_coefficients, C93_line, C93_mechanism, C93_origin,
  C93_unbound, C93_within, C94_origin
- `ClassicalDedekindReals.sig_not_dec`, `ClassicalDedekindReals.sig_forall_dec`,
  `FunctionalExtensionality.functional_extensionality_dep`:
  C124_normalized, C38_too_long_refuted, C41_cross, C41_distance, C41_dot, C41_mag, C41_norm,
  C41_operands, C44_normal, C45_forward, C47_min, C47_nearest, C48_any, C48_vertical,
  C49_accepts_all, C49_central, C49_distance, C49_fixed, C51_moved, C54_length, C54_parts, C54_unit,
  C54_unit_refuted, C62_area, C65_frame, C65_reverse, C65_size, C65_vertical, C66_cells,
  C66_corners, C66_points, C66_spacing, C66_zero, C81_shape, C82_area, C82_area_refuted,
  C82_area_true, C82_length, C82_width, C83_area, C85_none, C85_rjb, C85_rjb_inside_refuted,
  C85_rrup, C90_farthest, C90_farthest_refuted
- `Classical_Prop.classic`, `ClassicalDedekindReals.sig_not_dec`,
  `ClassicalDedekindReals.sig_forall_dec`, `FunctionalExtensionality.functional_extensionality_dep`:
  C04_round_double, C04_round_to_nearest, C05_ceil_to_nearest, C05_floor_to_nearest, C06_pop_round,
  C06_pop_round_short_big, C06_pop_round_short_small, C07_dollar_long, C07_dollar_long_million,
  C07_dollar_saturates, C07_dollar_short, C07_dollar_small, C08_backwards, C08_elapsed,
  C09_elapsed_string, C110_east_refuted, C110_strike, C110_unit, C110_up_refuted,
  C118_again_refuted, C118_corner, C118_fades, C120_cell, C120_cell_refuted, C120_dateline,
  C121_middle, C121_opposite, C122_mesh, C122_moved, C122_shape, C122_vector, C123_error,
  C123_found, C123_nearest_refuted, C125_answer, C125_closed_refuted, C125_few, C135_arrays,
  C135_counts, C135_edges, C135_outline, C135_thin_refuted, C137_alike, C137_equal_refuted, C137_ne,
  C35_edge, C35_lost_refuted, C35_one_line, C35_twice_refuted, C36_padded, C37_between, C37_beyond,
  C37_format_refuted, C37_nearest, C37_negative, C37_sector, C37_wrap_refuted, C38_label_text,
  C38_length, C39_ends, C39_formats, C39_nan, C39_presets, C40_mismatch_refuted, C42_angle,
  C42_depth, C42_metric, C43_cardinal, C43_course, C43_unique, C44_point, C44_roundtrip,
  C44_surface, C45_back, C45_disc, C45_reverse, C45_roundtrip, C48_rjb, C48_rjb_height_refuted,
  C48_rrup, C48_rupture, C48_rupture_rjb, C51_direction, C51_errors, C51_outline, C51_quads,
  C55_default_refuted, C55_set, C55_set_refused, C59_fraction_exact, C59_fraction_refuted,
  C64_clean, C64_eq, C64_transitive_refuted, C65_dip, C67_class, C67_errors, C70_later_refuted,
  C70_params, C70_time, C72_errors, C72_json, C72_no_file, C72_not_json, C72_object_refuted,
  C72_reference, C72_shape, C72_text, C72_text_read, C73_document, C73_mesh, C73_mesh_refuted,
  C73_reread, C80_actual, C80_default, C80_errors, C80_gap_refuted, C80_ignored, C80_joined,
  C81_index, C81_orientation, C81_orientation_lengths, C81_refused, C81_trace, C82_dip, C82_strike,
  C82_strike_between, C82_strike_none, C83_length, C83_length_errors, C83_width, C84_angles,
  C84_degenerate, C84_refused, C84_upright, C86_depth, C86_place, C86_upright, C87_between,
  C87_degenerate, C87_hidden, C87_one_segment, C87_one_trace, C88_along_refuted, C88_on_trace,
  C88_single, C89_several, C90_close, C90_edges, C90_ends, C90_gap, C90_nothing, C90_short,
  C93_distance, C93_refused, C94_away, C94_closer_refuted, C94_order, C94_surface
