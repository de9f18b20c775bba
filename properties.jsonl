{"id": "C01", "title": "Roman numerals denote the number they were made from", "statement": "dec_to_roman(n) returns, for every integer 1..3999, the canonical Roman numeral whose value (read by the ordinary subtractive reading of Roman numerals) is n; different numbers give different strings; every n<=0 and every n>=4000 raises ValueError and nothing else does.", "quantifier": "every integer n", "why_tests_cant": "the tests sample a handful of values; the claim is about all integers, including the rejection of every integer outside 1..3999", "anchors": ["impactutils/textformat/text.py:dec_to_roman", "impactutils/textformat/text.py:_dec_to_roman"]}
{"id": "C02", "title": "commify only inserts separators, every three digits", "statement": "For every integer n and every non-empty separator that does not start with a digit and contains no backslash, commify(n, sep) terminates and returns the sign followed by the decimal digits of |n| cut in threes from the right (leading group of one to three digits) and joined by the separator; anything after the leading number (a decimal fraction) is left alone; deleting a one-character separator other than '-' gives back the decimal text of n.", "quantifier": "every text with a leading integer (any length) and every such separator", "why_tests_cant": "unbounded number length: number of rewriting passes grows with the input", "anchors": ["impactutils/textformat/text.py:commify"]}
{"id": "C03", "title": "commify loops for ever on the empty separator and rejects digit separators", "statement": "commify(n, '') never terminates as soon as n has four or more digits, and returns n unchanged otherwise; a separator that is one decimal digit always raises re.error (it is swallowed by the group reference of the replacement template), even for short numbers.", "quantifier": "every text with a leading integer; the empty separator and every one-digit separator", "why_tests_cant": "non-termination is not observable by a finite test", "anchors": ["impactutils/textformat/text.py:commify"]}
{"id": "C04", "title": "round_to_nearest returns the nearest multiple despite floating point", "statement": "For integers v with |v| < 2^52 and integer step r >= 1 (r representable in double precision), round_to_nearest(v, r) computed with IEEE double division is a multiple of r at distance at most r/2 from v, and on an exact tie picks the even multiple.", "quantifier": "all integers |v|<2^52 and all integer steps 1<=r<2^53", "why_tests_cant": "2^52 values times 2^53 steps; the danger is a rounding of v/r that crosses a half-way point", "anchors": ["impactutils/textformat/text.py:round_to_nearest"]}
{"id": "C05", "title": "floor_to_nearest / ceil_to_nearest bracket the value", "statement": "For integers |v| < 2^53 and integer steps 1 <= r < 2^53, floor_to_nearest(v, r) is the greatest multiple of r not above v and ceil_to_nearest(v, r) the least multiple not below v, although the quotient is computed in double precision.", "quantifier": "all integers |v|<2^53 and all integer steps", "why_tests_cant": "the danger is a quotient such as k-1/r rounding up to k; sampling cannot exclude it", "anchors": ["impactutils/textformat/text.py:floor_to_nearest", "impactutils/textformat/text.py:ceil_to_nearest"]}
{"id": "C06", "title": "Population strings show the rounded population", "statement": "pop_round(v) is the comma-grouped text of the multiple of 1000 nearest to v; pop_round_short(v) is the plain integer below 1000, and from 1000 on the comma-grouped number of thousands (or, with usemillion and v >= 1e6, of whole millions of the rounded value) followed by k (m).  pop_round_short never displays 0 with a suffix.", "quantifier": "every non-negative integer population below 2^52", "why_tests_cant": "boundary behaviour at every power of 1000 and every tie", "anchors": ["impactutils/textformat/text.py:pop_round", "impactutils/textformat/text.py:pop_round_short"]}
{"id": "C07", "title": "dollar_round picks the unit by magnitude (and where it does not)", "statement": "In short mode an amount in [1e3,1e6) is shown in K, in [1e6,1e9) in M, and above in B. In long mode the same holds except that exactly one million is shown in billions. The displayed mantissa is the quotient correctly rounded to the requested number of significant digits, so amounts within half a unit of the next power of a thousand are displayed as 1000 of the smaller unit.", "quantifier": "every integer amount and every digits >= 1", "why_tests_cant": "boundary cases between units are measure-zero", "anchors": ["impactutils/textformat/text.py:dollar_round", "impactutils/textformat/text.py:set_num_precision"]}
{"id": "C08", "title": "Elapsed time is an exact mixed-radix decomposition", "statement": "For any two datetimes time1 <= time2 the dictionary of getTimeElapsed satisfies 604800*weeks+86400*days+3600*hours+60*minutes+seconds = whole seconds between the two, with 0<=seconds,minutes<60, 0<=hours<24, 0<=days<7, weeks>=0, although remainders are recovered through floating-point division; time2 < time1 raises.", "quantifier": "all pairs of datetimes (years 1..9999, microsecond resolution)", "why_tests_cant": "3e11 possible differences; remainders go through float division, subtraction, multiplication and rounding", "anchors": ["impactutils/time/timeutils.py:ElapsedTime.getTimeElapsed"]}
{"id": "C09", "title": "Elapsed strings name the two largest adjacent units", "statement": "getElapsedString reports the largest non-zero unit (weeks..minutes) followed by the next smaller unit with singular/plural chosen by value = 1, or only seconds when under a minute; the reported quantity is the elapsed time truncated to the smaller unit.", "quantifier": "all pairs of datetimes with time1<=time2", "why_tests_cant": "every combination of zero/one/many in five units", "anchors": ["impactutils/time/timeutils.py:ElapsedTime.getElapsedString", "impactutils/time/timeutils.py:ElapsedTime.getTimeStr"]}
{"id": "C10", "title": "Years before 1900 are formatted on an equivalent calendar year", "statement": "HistoricTime.strftime for a year y < 1900 formats a year in the same position of the 400-year Gregorian cycle: leap status, day of week of every date, day-of-year and last two digits all agree, the date exists in the replacement year, and the result never depends on anything but the year text; for y >= 1900 the ordinary formatting is used.  It fails with AssertionError exactly for the years y < 1900 with y mod 400 = 300.", "quantifier": "all dates of years 1..9999", "why_tests_cant": "all years, all days, including leap days in century years; the failing residue class is missed by sampling", "anchors": ["impactutils/time/ancient_time.py:HistoricTime.strftime"]}
{"id": "C11", "title": "Only real %Y directives are replaced", "statement": "In the pre-1900 path a maximal run of percent signs followed by Y is rewritten to the year exactly when the run has odd length (an active directive), preceded by its escaped percent pairs, and every other character of the format is preserved; formats with no active %Y are unchanged.", "quantifier": "every format string", "why_tests_cant": "arbitrary interleavings of %% and %Y", "anchors": ["impactutils/time/ancient_time.py:Specifier.replace_in"]}
{"id": "C12", "title": "UTM zone is always 1..60 and periodic", "statement": "_get_utm_zone(lon) lies in 1..60 for every finite longitude, has period 360, and zone z covers exactly the half-open six-degree band [-180+6(z-1), -180+6z).", "quantifier": "every real longitude", "why_tests_cant": "continuum of longitudes including negative and beyond +-180", "anchors": ["impactutils/time/timeutils.py:_get_utm_zone"]}
{"id": "C13", "title": "Raster lookup never leaves the raster and returns the code of the containing cell", "statement": "For a raster whose shape matches extents and resolution (east edge >= west edge), get_timezone_code for any latitude/longitude and any of the three rounding methods reads a cell inside the raster; for floor rounding of a point inside the extent it is the cell containing the point; points outside are clamped to the edge; an unknown rounding method raises UnsupportedArgumentError before anything else. Indexing with a negative row or column counts from the end. The conversions add the zone's offset at the instant, or take away the one chosen for the local time, and raise KeyError for a zone that is not known.", "quantifier": "every latitude/longitude, every raster size, extent and resolution", "why_tests_cant": "edges and corners are measure-zero; all raster geometries", "anchors": ["impactutils/time/timeutils.py:TimeConversion.get_timezone_code"]}
{"id": "C14", "title": "Antimeridian-crossing rasters always read an edge column", "statement": "When the extents cross the antimeridian (east edge < west edge) clamping happens before unwrapping, so every longitude is mapped to one of the two edges of the raster: no interior column can ever be returned.", "quantifier": "every longitude and every antimeridian-crossing extent", "why_tests_cant": "requires reasoning about all longitudes", "anchors": ["impactutils/time/timeutils.py:TimeConversion.get_timezone_code"]}
{"id": "C15", "title": "Local time uses the first containing zone, else nautical time", "statement": "LocalTime reports UTC plus the offset of the first feature, in file order, whose bounding box and polygon contain the point; later overlapping zones never matter; with no containing feature the offset is round(lon/15) hours. The constructor never reports a time zone name different from the one used, except in the fallback where the name is that of the last feature.", "quantifier": "every list of features, every point", "why_tests_cant": "all orders and overlaps of features", "anchors": ["impactutils/time/timeutils.py:LocalTime._find_time_zone"]}
{"id": "C16", "title": "A container is five independent name->value maps", "statement": "HDFContainer behaves, for every history of set/get/drop/list calls of the five kinds (dictionary, list, array, string, DataFrame), as five independent finite maps: get returns the value last set under that name and kind, operations on one name or kind never change another, listing returns exactly the names present.", "quantifier": "every finite history of operations, names and values", "why_tests_cant": "histories are unbounded; interference between kinds or names shows only in some histories", "anchors": ["impactutils/io/container.py:HDFContainer"]}
{"id": "C17", "title": "Setting an existing name fails without effect", "statement": "In HDFContainer a second set of the same kind and name raises and leaves the stored value unchanged; dropping a missing name raises LookupError (KeyError when the kind was never used) and changes nothing; after a successful drop the name can be set again.", "quantifier": "every reachable container state", "why_tests_cant": "failure atomicity must hold in every state", "anchors": ["impactutils/io/container.py:HDFContainer"]}
{"id": "C18", "title": "Grouped container paths round-trip", "statement": "HDFContainerBase set/get/drop of arrays, dictionaries and strings addressed by lists of sub-group names behave as a map from (kind, path) to value: get after set returns the value and its metadata, other paths are untouched, creation of intermediate groups never removes anything, and listing returns exactly the stored leaves (plus emptied groups).", "quantifier": "every history of operations, every nesting depth", "why_tests_cant": "unbounded nesting and histories", "anchors": ["impactutils/io/smcontainers.py:HDFContainerBase"]}
{"id": "C19", "title": "ShakeMap output container keeps one data type", "statement": "In every history of a ShakeMapOutputContainer the data type, once set, never changes: grids and point arrays are never both present, and calls of the other family raise TypeError without storing anything.", "quantifier": "every history of setDataType/setIMTGrids/setIMTArrays/get/drop calls", "why_tests_cant": "an invariant over all histories", "anchors": ["impactutils/io/smcontainers.py:ShakeMapOutputContainer.setDataType", "impactutils/io/smcontainers.py:ShakeMapOutputContainer.setIMTGrids", "impactutils/io/smcontainers.py:ShakeMapOutputContainer.setIMTArrays"]}
{"id": "C20", "title": "IMT bookkeeping agrees with stored data", "statement": "getIMTs(component) lists exactly the IMTs stored for that component and getComponents(imt) exactly the components storing that IMT, the two being inverse relations; dropIMT removes that IMT from every component and nothing else, the components staying listed.  A failed write can leave an IMT listed without readable data; when no write failed, listed and stored coincide.", "quantifier": "every history of IMT set/drop calls", "why_tests_cant": "history dependent", "anchors": ["impactutils/io/smcontainers.py:ShakeMapOutputContainer.getIMTs", "impactutils/io/smcontainers.py:ShakeMapOutputContainer.getComponents", "impactutils/io/smcontainers.py:ShakeMapOutputContainer.dropIMT"]}
{"id": "C21", "title": "A failed point-array write still fixes the data type", "statement": "setIMTArrays with mismatched array lengths raises ValueError but, if no data type was set before, leaves the file marked as a points file so that a later setIMTGrids is refused; setIMTGrids is refused without any effect in a points file.", "quantifier": "every container state and every mismatched call", "why_tests_cant": "failure effects are state dependent", "anchors": ["impactutils/io/smcontainers.py:ShakeMapOutputContainer.setIMTArrays"]}
{"id": "C22", "title": "ShakeMap base container: set-then-get, replacement and failure effects", "statement": "For config, rupture, station list, version history and metadata, get returns the JSON form of what the last successful set stored and raises when never set (the version history is then an empty dictionary); a setStationDict rejected because its argument is not a dictionary leaves the old value, whereas every other rejected set destroys the old value; other dictionaries are untouched.", "quantifier": "every history of set/get calls", "why_tests_cant": "history dependent", "anchors": ["impactutils/io/smcontainers.py:ShakeMapContainerBase"]}
{"id": "C23", "title": "A published file is never partial, whatever the crash point", "statement": "At every intermediate point of CopySender's copy of a file (any prefix of the write, crash before or after the rename) the target path holds either exactly its previous content or exactly the complete new content; files other than the target and its temporary are untouched.", "quantifier": "every crash point, every content, every prior file system", "why_tests_cant": "crash points cannot be enumerated by unit tests", "anchors": ["impactutils/transfer/copysender.py:CopySender._copy_file_with_path", "impactutils/transfer/ftpsender.py:FTPSender", "impactutils/transfer/securesender.py:SecureSender"]}
{"id": "C24", "title": "CopySender reproduces the local tree under the remote directory", "statement": "After a successful send with an absolute remote directory and a local directory path that occurs only once in each file path, every file of the local tree exists with identical content at the same relative path under the remote directory, no cancel file remains, and files outside the remote directory are unchanged.", "quantifier": "every local tree, every remote state", "why_tests_cant": "all trees and all path spellings", "anchors": ["impactutils/transfer/copysender.py:CopySender.send"]}
{"id": "C25", "title": "CopySender counts directory files twice", "statement": "The number reported by CopySender.send equals the number of individually listed files plus twice the number of files in the local directory.", "quantifier": "every set of files and every directory tree", "why_tests_cant": "the tests only check particular trees", "anchors": ["impactutils/transfer/copysender.py:CopySender.send"]}
{"id": "C26", "title": "send and cancel are inverse on the cancel marker", "statement": "After any history of send and cancel calls of CopySender the cancel file is present iff a cancel succeeded after the last send (every send, even a failing one, removes it first) or it was there at the start and no send was made, and its content is that of the last successful cancel (empty if none was given).", "quantifier": "every history of send/cancel", "why_tests_cant": "history dependent", "anchors": ["impactutils/transfer/copysender.py:CopySender.cancel", "impactutils/transfer/copysender.py:CopySender.send"]}
{"id": "C27", "title": "Sender construction accepts exactly complete configurations", "statement": "A sender is constructed iff every required property is present, local_files is None or a list of existing files, and local_directory is None or existing; a missing property raises RequiredArgumentError naming the first one missing; otherwise the first failing check determines the exception (a missing directory gives a NameError, because the message uses an undefined name).  Later calls of addProperty, addFiles and changeDirectory keep the required properties and never change the files.", "quantifier": "every property dictionary and file system", "why_tests_cant": "all combinations", "anchors": ["impactutils/transfer/sender.py:Sender.__init__", "impactutils/transfer/factory.py:get_sender_class"]}
{"id": "C28", "title": "Email recipients are partitioned into batches", "statement": "For max_bcc = 0 every recipient gets one message of their own; for max_bcc >= 2 the Bcc lists concatenate to the recipient list in order, are non-empty and at most max_bcc-1 long, so every recipient gets exactly one message; for max_bcc = 1 (or negative) with recipients the splitting never terminates.", "quantifier": "every recipient list and every max_bcc", "why_tests_cant": "unbounded lists; non-termination", "anchors": ["impactutils/transfer/emailsender.py:_split_addresses"]}
{"id": "C29", "title": "SMTP failover: delivered at least once or reported as failed", "statement": "_send_email raises iff no server accepted the message; servers are tried in order; it is delivered by exactly one server unless a server accepted the message and failed afterwards while closing, in which case the next server delivers it again.", "quantifier": "every list of servers and every pattern of server failures", "why_tests_cant": "all failure schedules", "anchors": ["impactutils/transfer/emailsender.py:_send_email"]}
{"id": "C30", "title": "PDL command lines contain every property exactly once", "statement": "For property values that contain no square brackets, the PDL command built by send has every placeholder replaced, contains --name=value for each required property, each product property and exactly the optional properties supplied, and status UPDATE (DELETE for cancel); more than one local file raises PDLError before any command is run.", "quantifier": "all property dictionaries", "why_tests_cant": "sequential textual substitution can capture text introduced earlier", "anchors": ["impactutils/transfer/pdlsender.py:PDLSender.send", "impactutils/transfer/pdlsender.py:PDLSender.cancel"]}
{"id": "C31", "title": "Quoted remote paths are read back as one literal word", "statement": "For every non-empty byte string without NUL, a POSIX shell reading _sh_quote(s) obtains exactly one word equal to s, with no expansion or command separator (provided s does not begin with a tilde).", "quantifier": "every byte string", "why_tests_cant": "injection is about adversarial inputs", "anchors": ["impactutils/extern/scp/scp.py:_sh_quote"]}
{"id": "C32", "title": "Chunked SCP transfer sends each byte once and in order", "statement": "For every file content and every positive buffer size, the sender emits the header, exactly the bytes of the file and one NUL; a receiver of the protocol reading with any buffer size obtains exactly that content.", "quantifier": "every content and buffer size", "why_tests_cant": "boundary sizes", "anchors": ["impactutils/extern/scp/scp.py:SCPClient._send_files", "impactutils/extern/scp/scp.py:SCPClient._recv_file"]}
{"id": "C33", "title": "Recursive SCP keeps the remote working directory in step", "statement": "While walking any directory tree depth-first the push/pop directives emitted by _send_recursive place every file in the directory with the same relative path, the depth never becomes negative and returns to zero at the end.", "quantifier": "every directory tree", "why_tests_cant": "unbounded depth and branching", "anchors": ["impactutils/extern/scp/scp.py:SCPClient._chdir", "impactutils/extern/scp/scp.py:SCPClient._send_recursive"]}
{"id": "C34", "title": "City filters keep exactly the matching rows", "statement": "limitByBounds keeps exactly the rows with lat in (ymin,ymax] and lon in (xmin,xmax], limitByRadius those with distance <= radius, limitByPopulation those with pop >= threshold (raising ValueError when minpop >= pop and KeyError without pop column); order and row contents are preserved, filters commute and are idempotent, and the original object is unchanged.", "quantifier": "every table and every bound", "why_tests_cant": "all tables", "anchors": ["impactutils/mapping/city.py:Cities.limitByBounds", "impactutils/mapping/city.py:Cities.limitByRadius", "impactutils/mapping/city.py:Cities.limitByPopulation"]}
{"id": "C35", "title": "Grid limiting keeps the most populous cities per cell", "statement": "limitByGrid returns at most n cities from each of the nx*ny cells, every kept city is at least as populous as every dropped city of its cell, and the cities on the southern or western edge of the data are never returned; in exact arithmetic no city is returned twice and every other city has a cell, while in floating point arithmetic cities near cell edges can be lost or returned twice.", "quantifier": "every table, nx, ny, n >= 1", "why_tests_cant": "every distribution of cities over cells", "anchors": ["impactutils/mapping/city.py:Cities.limitByGrid"]}
{"id": "C36", "title": "Labels drawn on a map never overlap", "statement": "After collision removal the bounding boxes of the surviving cities are pairwise disjoint, the most populous city always survives, and a smaller city is kept exactly when its label is on the map and overlaps no more populous label on the map, including labels that were themselves removed.", "quantifier": "every set of label boxes", "why_tests_cant": "quadratic number of pairs, all configurations", "anchors": ["impactutils/mapping/mercatormap.py:MercatorMap.limitByMapCollision"]}
{"id": "C37", "title": "Compass direction is the nearest of the sixteen points", "statement": "get_compass_dir_azimuth-based direction names are those of the compass point whose angle is nearest to the azimuth (first on ties), within half a sector, for every azimuth in [0,360]; get_compass_dir ignores its format argument.", "quantifier": "every azimuth", "why_tests_cant": "continuum with wrap-around at north", "anchors": ["impactutils/mapping/compass.py:get_compass_dir_azimuth", "impactutils/mapping/compass.py:get_compass_dir"]}
{"id": "C38", "title": "Scale bar arguments are checked and lengths are nearest", "statement": "draw_scale raises unless bar_length and divisions are given together, divisions is 2..6, units and position are known; when the length is chosen automatically it is the table entry closest to a quarter of the map width and the number of divisions is the one tabulated, which always divides the bar into equal labelled parts; when the caller supplies both values the function always fails with an unbound variable.", "quantifier": "every argument combination and map width", "why_tests_cant": "all combinations", "anchors": ["impactutils/mapping/scalebar.py:draw_scale"]}
{"id": "C39", "title": "Colour lookup interpolates within the segment containing the value", "statement": "For a palette with contiguous increasing segments and a value inside its range, the colour returned is, up to one step of the look-up table, the linear interpolation between the two colours of the segment containing the value; values outside are clamped to exactly the end colours; not-a-number gets the colour given for it; every channel stays in [0,1], the byte form is the floor of 255 times the channel and the hex form is #RRGGBB of the bytes.", "quantifier": "every palette and value", "why_tests_cant": "continuum of values, all palettes", "anchors": ["impactutils/colors/cpalette.py:ColorPalette.__init__", "impactutils/colors/cpalette.py:ColorPalette.getDataColor"]}
{"id": "C40", "title": "Palette length validation misses most mismatches", "statement": "The constructor rejects mismatched z0/z1/rgb0/rgb1 lengths exactly when all three adjacent pairs of lengths differ; any input where some adjacent pair agrees is accepted by the check.", "quantifier": "every quadruple of lengths", "why_tests_cant": "all combinations", "anchors": ["impactutils/colors/cpalette.py:ColorPalette.__init__"]}
{"id": "C41", "title": "Vector operations obey the algebra of three-space", "statement": "Vector addition, subtraction, scaling, dot and cross product obey the usual laws (commutativity, distributivity, anticommutativity, orthogonality of the cross product, Lagrange identity), mag is the Euclidean norm (triangle inequality, Cauchy-Schwarz), norm gives a vector of length one in the same direction for every non-zero vector, and non-vector operands raise TypeError.", "quantifier": "all vectors", "why_tests_cant": "identities over a continuum", "anchors": ["impactutils/vectorutils/vector.py:Vector"]}
{"id": "C42", "title": "Great-circle distance is a symmetric, bounded separation", "statement": "geodetic_distance is non-negative, zero for identical points, symmetric, invariant under adding 360 degrees to a longitude, at most half the circumference, and equals the central angle between the two points' unit vectors times the radius; distance combines it with depth by Pythagoras.", "quantifier": "all pairs of points", "why_tests_cant": "identities over a continuum", "anchors": ["impactutils/extern/openquake/geodetic.py:geodetic_distance", "impactutils/extern/openquake/geodetic.py:distance"]}
{"id": "C43", "title": "Azimuth lies in [0,360) and points along the course", "statement": "azimuth is always in [0, 360); due north is 0, due east along the equator 90, due south 180, west 270; its sine and cosine are the east and north components of the unit tangent towards the destination.", "quantifier": "all pairs of points", "why_tests_cant": "identities over a continuum", "anchors": ["impactutils/extern/openquake/geodetic.py:azimuth"]}
{"id": "C44", "title": "Geographic to ECEF conversion is invertible", "statement": "latlon2ecef maps a latitude/longitude/depth to the point at that height on the normal to the ellipsoid; points on the surface satisfy the ellipsoid equation, increasing depth moves along the inward normal by that many kilometres.  ecef2latlon of the result gives the longitude exactly, and for depths within 1000 km of the surface the latitude within 3e-7 degrees and the depth within 10 cm; on the surface the latitude is exact, and the depth too except within a metre of the axis.", "quantifier": "all latitudes, longitudes, depths", "why_tests_cant": "identities over a continuum", "anchors": ["impactutils/vectorutils/ecef.py:latlon2ecef", "impactutils/vectorutils/ecef.py:ecef2latlon"]}
{"id": "C45", "title": "Spherical and cartesian coordinates round-trip", "statement": "cartesian_to_spherical(spherical_to_cartesian(lon, lat, depth)) = (lon, lat, depth) for -180<lon<=180, -90<lat<90 and depth < Earth radius, and the orthographic projection followed by its reverse is the identity on the hemisphere around its centre.", "quantifier": "all points", "why_tests_cant": "identities over a continuum", "anchors": ["impactutils/extern/openquake/utils.py:spherical_to_cartesian", "impactutils/extern/openquake/utils.py:cartesian_to_spherical", "impactutils/extern/openquake/utils.py:OrthographicProjection"]}
{"id": "C46", "title": "Longitude arithmetic across the date line", "statement": "get_longitudinal_extent lies in [-180,180), is antisymmetric except at 180, and is congruent to lon2-lon1 modulo 360; get_spherical_bounding_box returns a box containing every input point going east from west to east or raises ValueError.", "quantifier": "all longitude collections", "why_tests_cant": "wrap-around cases", "anchors": ["impactutils/extern/openquake/utils.py:get_longitudinal_extent", "impactutils/extern/openquake/utils.py:get_spherical_bounding_box"]}
{"id": "C47", "title": "Distance to a segment is the true minimum", "statement": "_distance_sq_to_segment(p0,p1) is the minimum over the closed segment of the squared distance to the origin (attained), including degenerate segments.", "quantifier": "all segments in space", "why_tests_cant": "continuum, degenerate cases", "anchors": ["impactutils/rupture/utils.py:_distance_sq_to_segment"]}
{"id": "C48", "title": "Rupture distance is the minimum distance to the quadrilateral", "statement": "For a planar convex quadrilateral the per-quad distance equals the distance to the closest point of the quadrilateral; computeRrup/computeRjb return the minimum over all quads (at most 1e16 km); Rjb is zero inside the surface projection and never exceeds distances to its points, but counts the height of the site outside it, and the projection of a vertical rupture has no normal vector.  For four points in general position the distance is that of the nearest edge or of the plane of the first three points.", "quantifier": "all planar convex quads and sites", "why_tests_cant": "continuum", "anchors": ["impactutils/rupture/utils.py:_quad_distance", "impactutils/rupture/quad_rupture.py:QuadRupture.computeRrup"]}
{"id": "C49", "title": "The coplanarity test never rejects", "statement": "is_quad measures the distance of p2 from the plane through p0, p1, p2 itself, so it reports on_plane = True for every quadrilateral; the corrected quadrilateral is plane, with the bottom edge parallel to the top and of its old length.  get_distance_to_plane is the distance from a plane unless the plane passes through the centre of the Earth, when it is 0.", "quantifier": "all quadrilaterals", "why_tests_cant": "tests use nearly planar quads", "anchors": ["impactutils/rupture/utils.py:is_quad", "impactutils/rupture/factory.py:is_quadrupture_class"]}
{"id": "C50", "title": "Polygon validation accepts exactly top-first closed polygons", "statement": "_check_polygon succeeds iff the polygon is a single vertex, or closed with n top and n bottom vertices and each top vertex strictly shallower than the bottom vertex paired with it.  text_to_json gives every group its first valid rotation if all groups have one and otherwise leaves all as they were; whatever it returns is valid and has the vertices of the text, cyclically.  A group with one vertex disables the repair of all; coordinates separated by a comma and a blank are always refused.", "quantifier": "all polygons", "why_tests_cant": "all rotations and sizes", "anchors": ["impactutils/rupture/factory.py:_check_polygon", "impactutils/rupture/factory.py:_rotate_polygon", "impactutils/rupture/factory.py:text_to_json"]}
{"id": "C51", "title": "Polygons are split into adjoining quads sharing edges", "statement": "For each polygon with n top and n bottom vertices exactly n-1 quads are produced, in order; quad k is made of top vertices k,k+1 and the matching bottom vertices, up to rounding, except that its lower right corner is moved parallel to the top edge, so that neighbours share it only if the bottom edge is parallel to the top edge; a quad is turned round iff its normal points down.  The outline reported by lons/lats/depths is a closed ring per group when no quad is turned; when all are, it misses the last top vertex.", "quantifier": "all polygon lists", "why_tests_cant": "index arithmetic for every size", "anchors": ["impactutils/rupture/quad_rupture.py:QuadRupture._setQuadrilaterals", "impactutils/rupture/quad_rupture.py:QuadRupture.__init__"]}
{"id": "C52", "title": "Edge ruptures with several groups list the wrong quads", "statement": "EdgeRupture.getQuadrilaterals returns the right quads for the first group, but for every later group it returns quads of the beginning of the first group's vertex arrays again; the number of quads is correct.", "quantifier": "all groupings", "why_tests_cant": "needs several groups", "anchors": ["impactutils/rupture/edge_rupture.py:EdgeRupture.getQuadrilaterals"]}
{"id": "C53", "title": "Edge arrays and polygons round-trip", "statement": "Building an EdgeRupture from top/bottom arrays and reading back the polygons recovers the arrays group by group: top vertices in order, bottom vertices reversed, polygon closed, groups in increasing order; the arrays come back as they were if the group index never decreases; building again from the result gives the same rupture.", "quantifier": "all arrays and groupings", "why_tests_cant": "all sizes", "anchors": ["impactutils/rupture/edge_rupture.py:EdgeRupture.__init__", "impactutils/rupture/edge_rupture.py:EdgeRupture.fromArrays"]}
{"id": "C54", "title": "The unit slip vector is not a unit vector", "statement": "get_local_unit_slip_vector returns a vector whose squared length is 1 + sin(2 rake) cos(dip) sin(2 strike); it is a unit vector only when that product vanishes; the strike-slip and dip-slip parts add up to it.", "quantifier": "all strike, dip and rake angles", "why_tests_cant": "continuum", "anchors": ["impactutils/rupture/utils.py:get_local_unit_slip_vector"]}
{"id": "C55", "title": "Origins are validated and mechanisms normalised", "statement": "Origin accepts an event iff all required keys are present, id is a string or None, latitude/longitude are in range and mech is one of SS/NM/RS/ALL (empty means ALL, type is an alias); the error raised is that of the first check that fails; afterwards rake is always a number and all other keys are attributes; the caller's dictionary changes only in mech and type and gives the same origin again.  setMechanism stores a rake in [-180,180] equal to the given one up to one turn and a dip in [0,90], accepting exactly rakes in [-540,540], or raises ValueError without changing anything.", "quantifier": "all event dictionaries and arguments", "why_tests_cant": "all combinations", "anchors": ["impactutils/rupture/origin.py:Origin.__init__", "impactutils/rupture/origin.py:Origin.setMechanism"]}
{"id": "C56", "title": "Rake determines mechanism by disjoint bands", "statement": "rake_to_mech returns SS, NM, RS exactly on its three disjoint sets of angles within [-180,180] and ALL otherwise, and composed with the default rakes is the identity on mechanisms.", "quantifier": "all rakes", "why_tests_cant": "continuum", "anchors": ["impactutils/rupture/utils.py:rake_to_mech", "impactutils/rupture/constants.py:RAKEDICT"]}
{"id": "C57", "title": "source.txt parsing", "statement": "read_source returns, for files of key=value lines and # comments, the last value of each key with surrounding blanks removed and numbers converted; a line without '=' raises IndexError; text after a second '=' is dropped.", "quantifier": "all files", "why_tests_cant": "all line contents", "anchors": ["impactutils/rupture/origin.py:read_source"]}
{"id": "C58", "title": "ComCat ids and sources correspond", "statement": "getAssociatedIds returns the authoritative id and the other ids in order (or raises ValueError if absent); getAssociatedSources pairs each id with its longest matching source prefix (first on ties), in the same order as the ids.", "quantifier": "all id and source lists", "why_tests_cant": "ambiguous prefixes", "anchors": ["impactutils/comcat/query.py:ComCatInfo.getAssociatedIds", "impactutils/comcat/query.py:ComCatInfo.getAssociatedSources"]}
{"id": "C59", "title": "Fractional steps: exact scaling is right, inexact scaling can lose one unit", "statement": "For a step below one, round_to_nearest/floor_to_nearest/ceil_to_nearest scale value and step by 10^nd (nd digits after the point of str(step)).  If the scaled step is an exact integer s the result is k*s/10^nd correctly rounded, k being the rounded quotient.  Otherwise int() may truncate: round_to_nearest(0.29, 0.29) is 0.28.", "quantifier": "every double value and every step below one with an exact scaling; one witness for the failure", "why_tests_cant": "depends on the binary representation of each decimal step", "anchors": ["impactutils/textformat/text.py:round_to_nearest", "impactutils/textformat/text.py:floor_to_nearest", "impactutils/textformat/text.py:ceil_to_nearest"]}
{"id": "C60", "title": "LocalTime's offset is right only away from offset changes", "statement": "LocalTime passes the naive UTC time to pytz, which interprets it as local time.  If the zone's offset is constant within M of the time (M bounding all offsets) the reported offset is the true one; within M of a change it can be an hour wrong or the constructor can raise.", "quantifier": "every zone, every instant; witnesses for the failure", "why_tests_cant": "depends on all transition instants of all zones", "anchors": ["impactutils/time/timeutils.py:LocalTime._find_time_zone"]}
{"id": "C61", "title": "Mail goes to the batches in order and each delivered message is complete", "statement": "EmailSender.send delivers to a prefix of the batches, in order, one message each with the configured sender, subject, text and attachments (the local files and everything below the local directory, each once), and returns iff all batches were delivered; cancel goes to the same batches without attachments, the cancel_content property taking priority over the argument.  A directory without local files and without zip_file always fails.  The Bcc header is part of the transmitted text, so the recipients of a batch see each other.", "quantifier": "every configuration, directory listing and schedule of servers that reject a message or deliver it to everybody", "why_tests_cant": "needs SMTP servers failing at every point", "anchors": ["impactutils/transfer/emailsender.py:EmailSender.send", "impactutils/transfer/emailsender.py:EmailSender.cancel", "impactutils/transfer/emailsender.py:_send_email"]}
{"id": "C62", "title": "The area of a spherical mesh triangle is Heron's", "statement": "triangle_area of the three edge vectors of a triangle is half the length of the cross product of two of its sides; it does not depend on the order of the edges.", "quantifier": "all triangles", "why_tests_cant": "continuum", "anchors": ["impactutils/extern/openquake/utils.py:triangle_area"]}
{"id": "C63", "title": "Date line fixes keep the meridians", "statement": "cross_idl holds iff the two longitudes lie on opposite sides of 0 and more than 180 degrees apart; fix_lons_idl returns the same meridians in the same order, within [0, 360) iff some pair crosses and unchanged otherwise.  fix_bounding_box_idl gives the short way round when the box crosses; with fix_idl=True it gives None when an edge is 0 and the complement of the box when the box spans 0.", "quantifier": "all longitudes and boxes", "why_tests_cant": "continuum; needs edges exactly at 0", "anchors": ["impactutils/extern/openquake/utils.py:cross_idl", "impactutils/extern/openquake/utils.py:fix_lons_idl", "impactutils/extern/openquake/utils.py:fix_bounding_box_idl"]}
{"id": "C64", "title": "Points: validity, equality and removal of duplicates", "statement": "A Point is accepted iff depth, longitude and latitude are in range, otherwise ValueError.  Two points are equal iff their distance is at most a metre: reflexive and symmetric, but not transitive.  clean_points keeps the first point and a subsequence in which neighbours differ; every point dropped equals one kept.", "quantifier": "all points and lists of points", "why_tests_cant": "all list lengths; continuum", "anchors": ["impactutils/extern/openquake/point.py:Point", "impactutils/extern/openquake/utils.py:clean_points"]}
{"id": "C65", "title": "Directions and sizes of a rupture quadrilateral", "statement": "Strike, down-dip and normal vectors of a quadrilateral are orthonormal and right-handed, the strike along the top edge and down-dip towards the fourth corner; length is that of the top edge and width the distance of the fourth corner from its line; the vertical vector is the normal of the ellipsoid; dip is the angle between normal and vertical; reversing a plane quadrilateral turns its normal over.", "quantifier": "all quadrilaterals whose first, second and fourth corners are not in line", "why_tests_cant": "continuum", "anchors": ["impactutils/rupture/utils.py:get_quad_normal", "impactutils/rupture/utils.py:get_quad_down_dip_vector", "impactutils/rupture/utils.py:get_quad_width", "impactutils/rupture/utils.py:get_vertical_vector", "impactutils/rupture/utils.py:reverse_quad"]}
{"id": "C66", "title": "A quadrilateral's mesh interpolates its corners", "statement": "get_quad_mesh returns at least two rows and two columns; row r and column c is the bilinear interpolation of the corners at c/(nx-1) and r/(ny-1), so lies in the quadrilateral; the spacing along the top differs from the target by at most half a step over its length; every cell has the four mesh points round it and its centre is their mean.", "quantifier": "all quadrilaterals and spacings", "why_tests_cant": "continuum and all mesh sizes", "anchors": ["impactutils/rupture/utils.py:get_quad_mesh"]}
{"id": "C67", "title": "Quad ruptures are those with level edges", "statement": "is_quadrupture_class answers True iff in every patch of every polygon the depths of the two upper corners and those of the two lower corners differ by at most 50 m; coplanarity never matters, and a long edge may descend by small steps.  The only failure is ValueError.", "quantifier": "all lists of polygons of any size", "why_tests_cant": "all sizes; continuum", "anchors": ["impactutils/rupture/factory.py:is_quadrupture_class"]}
{"id": "C68", "title": "Event files are read and written back", "statement": "read_event_file succeeds iff id, netid, locstring, four numbers and a time in one of two formats are present, and returns exactly what the attributes say (network defaults to empty, productcode to the id for paths); otherwise the error is that of the first thing missing.  write_event_file writes exactly the described attributes or nothing; reading back what was written gives the same texts, the rounded numbers and the time to the second, and drops type and event_type.  Files with the date in pieces are never readable.  In Origin.fromFile the source file overrides the event file; with a moment file there is never an origin.", "quantifier": "all attribute dictionaries, events and source files", "why_tests_cant": "all combinations of missing and malformed attributes", "anchors": ["impactutils/rupture/origin.py:read_event_file", "impactutils/rupture/origin.py:write_event_file", "impactutils/rupture/origin.py:Origin.fromFile"]}
{"id": "C69", "title": "Downloads: one request, and what becomes of failures", "statement": "Each download makes exactly one request and returns the page, or None for an HTTP error other than 503, and raises otherwise; the retry after 503 is never made.  ComCatInfo asks for the detail page of the event and is its JSON, or raises Exception; GeoServe asks for places then regions, at URLs with the given texts, and succeeds iff both are JSON.  getAuthoritative gives network and type of the first feature, or ('US','NA') if there is none; getRegions does not omit metadata.  getShakeGrid returns the URL, or the file with exactly the page in it, else None; after an HTTP error the file has been emptied.", "quantifier": "all server behaviours and documents", "why_tests_cant": "needs failing servers", "anchors": ["impactutils/comcat/query.py:_get_url_data", "impactutils/comcat/query.py:GeoServe", "impactutils/comcat/query.py:ComCatInfo.__init__", "impactutils/comcat/query.py:ComCatInfo.getShakeGrid"]}
{"id": "C70", "title": "ComCat event parameters", "statement": "getEventParams takes longitude, latitude and depth in this order and the magnitude as they are; the time in milliseconds becomes whole seconds rounded towards 1970 (so before 1970 it may be later than the event), despite floating point; it fails iff one is missing or the time is outside years 1 to 9999.  The other getters return the field they are named after.", "quantifier": "all documents and integer times up to 2^51 ms", "why_tests_cant": "all documents; rounding of a quotient", "anchors": ["impactutils/comcat/query.py:ComCatInfo.getEventParams"]}
{"id": "C71", "title": "Which rupture documents are valid", "statement": "validate_json accepts a document iff it is a FeatureCollection of one Feature whose metadata have a reference and whose geometry is a Point with non-empty coordinates or a MultiPolygon whose first part is a list of polygons, each well-ordered (top edge, then bottom edge backwards, then the start, the top shallower than the bottom).  A document wrong in one place gives the error belonging to it.", "quantifier": "all JSON documents", "why_tests_cant": "arbitrary nesting and all list lengths", "anchors": ["impactutils/rupture/factory.py:validate_json"]}
{"id": "C72", "title": "Which rupture a file gives", "statement": "get_rupture needs an Origin (TypeError); without a file it gives a PointRupture; a JSON file gives the rupture of its document; anything else is read as lines of vertices and comments.  The rupture is a point for a Point, quadrilaterals made from the patches iff all their edges are horizontal to 50 m, otherwise edges with exactly the vertices given, and keeps the origin.  Its reference is the document's for edges, the origin's if it has one for quadrilaterals, 'Origin' for points.  Errors are ValueError or IOError only; a text beginning with a brace that is not a good JSON rupture, or that is given as a file object, is always an error.", "quantifier": "all files, documents and origins", "why_tests_cant": "all files, and combinations of formats", "anchors": ["impactutils/rupture/factory.py:get_rupture", "impactutils/rupture/factory.py:rupture_from_dict_and_origin", "impactutils/rupture/quad_rupture.py:QuadRupture.__init__", "impactutils/rupture/edge_rupture.py:EdgeRupture.__init__", "impactutils/rupture/point_rupture.py:PointRupture.__init__"]}
{"id": "C73", "title": "Ruptures survive being written and read", "statement": "The document a rupture keeps differs from the one given only in the metadata, to which the origin's attributes (and mesh_dx for edges) are added; rupture_from_dict of it gives a rupture of the same kind with the same geometry and document, whose origin has the same attributes and those of the metadata.  This needs metadata without mesh_dx: quadrilaterals with it come back as edges.", "quantifier": "all valid documents, all origins", "why_tests_cant": "all documents; idempotence", "anchors": ["impactutils/rupture/factory.py:rupture_from_dict", "impactutils/rupture/base.py:Rupture.writeGeoJson"]}
{"id": "C74", "title": "FTP uploads never show a partial file", "statement": "At every moment of FTPSender.send, and at its end, each path on the server that is not a temporary name is as before, or holds a complete content meant for it (listed files under their name, files of the directory under their relative path), or is a newly made directory on the way; nothing outside the remote directory changes and no directory is removed.", "quantifier": "all local and remote trees, ways of cutting contents into pieces, and for every command whether it is carried out, refused, or carried out with the answer lost", "why_tests_cant": "all interruption points of all commands", "anchors": ["impactutils/transfer/ftpsender.py:FTPSender.send", "impactutils/transfer/ftpsender.py:FTPSender._copy_file_with_path", "impactutils/transfer/ftpsender.py:FTPSender._create_remote_directory"]}
{"id": "C75", "title": "What a successful FTP upload means", "statement": "When send returns z, every listed file is in place and so are z minus their number of the directory's files; if z counts all files, all are in place and no temporary file is left.  With an absolute remote directory, no refusals and no name conflicts it returns the number of all files.  A directory file that cannot be sent is skipped silently, and with a relative remote directory none is counted.", "quantifier": "the same", "why_tests_cant": "all failure schedules", "anchors": ["impactutils/transfer/ftpsender.py:FTPSender.send"]}
{"id": "C76", "title": "FTP cancel, markers and errors", "statement": "With an absolute remote directory a successful cancel leaves an empty marker in it, complete at every moment, and touches no other file; it succeeds if nothing is in the way.  With a relative one it fails, or puts the marker further down.  A later send leaves the marker.  Every failed send raises NameError.", "quantifier": "the same", "why_tests_cant": "all failure schedules", "anchors": ["impactutils/transfer/ftpsender.py:FTPSender.cancel", "impactutils/transfer/ftpsender.py:FTPSender._setup"]}
{"id": "C77", "title": "SSH uploads never show a partial file", "statement": "For every schedule of the remote commands and every fate of every step, at every moment of SecureSender.send and afterwards, each remote path that is not a temporary name is as before, or holds the complete content meant for it, or is a newly made directory on the way; nothing outside the remote directory changes.  This needs an absolute remote directory, names of harmless characters, no two files for one path, and no path wanted or used for both a file and a directory: without these a half-written file can be published, a file removed, or any command run.", "quantifier": "all local and remote trees, pieces, time stamps, orders and delays of the commands started, and for every step whether it works, is refused, or is carried out with the answer lost", "why_tests_cant": "all interleavings of the started commands with the steps", "anchors": ["impactutils/transfer/securesender.py:SecureSender.send", "impactutils/transfer/securesender.py:SecureSender._copy_file_with_path", "impactutils/transfer/securesender.py:SecureSender._make_remote_folder", "impactutils/transfer/securesender.py:SecureSender._check_remote_folder"]}
{"id": "C78", "title": "What a successful SSH upload means", "statement": "When send has returned a number and the commands it started have been carried out, in any order, every file is in place with its content, no temporary file is left, and the number is that of the files.  It succeeds if steps work, commands are carried out promptly and the listed files exist.  But it returns before the files are in place, whether or not the renaming works; names with blanks stay under their temporary names, a directory in the way swallows the file, a slow host makes it fail, and with a relative remote directory the files go to two places.", "quantifier": "the same", "why_tests_cant": "all interleavings", "anchors": ["impactutils/transfer/securesender.py:SecureSender.send"]}
{"id": "C79", "title": "SSH cancel", "statement": "Cancel changes at most the marker, which at every moment is as before, empty, or holds the text (None without one) and a newline.  If it succeeds something has the marker's name, and the text is in it once the command is carried out and the marker is not a directory.  With a prompt host it succeeds iff the remote directory exists; otherwise it raises and nothing changes.  A marker from before suffices for success, and a slow host makes it fail though the marker appears.", "quantifier": "all trees, texts of harmless words, schedules and fates", "why_tests_cant": "all interleavings", "anchors": ["impactutils/transfer/securesender.py:SecureSender.cancel", "impactutils/transfer/securesender.py:SecureSender._connect"]}
{"id": "C80", "title": "Ruptures from vertices", "statement": "fromVertices gives the quadrilaterals group by group in the order of the group numbers, one for each patch; when within each group every patch begins where the one before ends they are the patches given, up to the planarity repair, with the groups numbered from 0 (no group numbers: each patch is a group).  The left corners of all but the first patch of a group have no effect, so gaps are silently closed.  The twelve arrays and the group numbers must have one length, otherwise ConsistentLengthError.", "quantifier": "all arrays of coordinates and group numbers", "why_tests_cant": "all lengths and groupings; continuum", "anchors": ["impactutils/rupture/quad_rupture.py:QuadRupture.fromVertices"]}
{"id": "C81", "title": "Ruptures from a trace or an orientation", "statement": "fromTrace gives the rupture built from patches whose top is the trace and whose lower edge lies the given width down the given dip, at right angles to the strike (given once, once for each row, or that of the trace) in the orthographic projection about the middle; seen from above each is a parallelogram.  Lengths that differ are refused, a number of strikes that is neither one nor that of the rows is refused, too many group numbers never give a rupture.  fromOrientation gives the rupture of the trace half of whose length lies on each side of the point reached from the known point.", "quantifier": "all rows visible from the middle, all strikes, dips, widths and groupings; any middle and any faithful way of going over the sphere", "why_tests_cant": "continuum; all lengths", "anchors": ["impactutils/rupture/quad_rupture.py:QuadRupture.fromTrace", "impactutils/rupture/quad_rupture.py:QuadRupture.fromOrientation"]}
{"id": "C82", "title": "Sizes and angles of quadrilateral ruptures", "statement": "getLength is the sum of the lengths of the upper edges, getWidth the mean over the quadrilaterals of the distance of the fourth corner from the line of the upper edge, getArea the sum of length times width (the true area exactly for parallelograms).  getStrike is the direction of the sum of the unit vectors of the upper edges' azimuths weighted by their lengths, hence within any arc less than half a turn that contains all azimuths.  getDip is the mean of the angles between the normals and the vertical, getDepthToTop the least depth of the upper edges.", "quantifier": "all lists of quadrilaterals", "why_tests_cant": "continuum; all numbers of quadrilaterals", "anchors": ["impactutils/rupture/quad_rupture.py:QuadRupture.getLength", "impactutils/rupture/quad_rupture.py:QuadRupture.getWidth", "impactutils/rupture/quad_rupture.py:QuadRupture.getArea", "impactutils/rupture/quad_rupture.py:QuadRupture.getStrike", "impactutils/rupture/quad_rupture.py:QuadRupture.getDip", "impactutils/rupture/quad_rupture.py:QuadRupture.getDepthToTop"]}
{"id": "C83", "title": "Sizes of edge ruptures", "statement": "For ruptures given by their edges getLength is the length over the ground of the lines below which the upper edges lie, getArea the sum over the patches of the areas of the two triangles into which the first diagonal cuts them (half the product of the diagonals for a proper plane patch), getWidth their quotient, and getDepthToTop the least depth of the upper edges.", "quantifier": "all ruptures made of pairs of edges of equal length", "why_tests_cant": "continuum; all groupings", "anchors": ["impactutils/rupture/edge_rupture.py:EdgeRupture.getLength", "impactutils/rupture/edge_rupture.py:EdgeRupture.getWidth", "impactutils/rupture/edge_rupture.py:EdgeRupture.getArea", "impactutils/rupture/edge_rupture.py:EdgeRupture.getDepthToTop"]}
{"id": "C84", "title": "Strike and dip of edge ruptures", "statement": "The representative dip lies between 0 and 90 degrees and is the angle between the horizontal and the plane whose normal is the sum of the vector areas of all triangles, upwards being the mean of the local verticals weighted by area; 90 degrees clockwise of the strike, which lies from -180 to 180, that plane goes down.  A surface that is upright as a whole is reported with dip 0 and no strike; one triangle without area makes both nan; vertices within a thousandth of a degree of the pole are refused.", "quantifier": "all ruptures made of pairs of edges of equal length", "why_tests_cant": "continuum; all groupings", "anchors": ["impactutils/rupture/edge_rupture.py:EdgeRupture._computeStrikeDip"]}
{"id": "C85", "title": "Distances to edge ruptures", "statement": "computeRrup of an edge rupture is the distance to some point of the surface spanned by the patches, hence never too small, and exceeds the distance to any point of a patch by no more than one and a half times the mesh spacing times the factor by which the patch's lengths vary.  computeRjb is the same with all vertices at depth zero; it need not vanish above the rupture.", "quantifier": "all ruptures made of pairs of edges of equal length, all sites and spacings", "why_tests_cant": "continuum; all meshes", "anchors": ["impactutils/rupture/edge_rupture.py:EdgeRupture.computeRrup", "impactutils/rupture/edge_rupture.py:EdgeRupture.computeRjb"]}
{"id": "C86", "title": "Depth of a rupture below a place", "statement": "getDepthAtPoint gives nan more than two metres away from the rupture on the map; otherwise the first nearest quadrilateral answers with the depth that varies evenly with the distance from the upper edge, but only if the upper edge is at depth zero or the place is on its line; otherwise the answer is too great by 0.999 times the depth of the upper edge times the fraction of the width.  Upright quadrilaterals give nan.", "quantifier": "all quadrilaterals and places, any middle of the projection", "why_tests_cant": "continuum", "anchors": ["impactutils/rupture/quad_rupture.py:QuadRupture.getDepthAtPoint"]}
{"id": "C87", "title": "GC2 coordinates about one trace", "statement": "For a rupture in one trace and a site off it, T is the mean of how far the site lies to the right of the segments on the map and U the mean of how far it lies along the trace, each segment weighed by the integral over it of the inverse squared distance; rx is T, ry is U less half the length of the rupture, and ry0 is how far U lies outside the rupture.  T lies between the least and greatest distance to the right; for one segment T, rx and U are exact.  Places not on the map are refused with ValueError; a segment without length makes T, U, rx and ry nan and ry0 zero.", "quantifier": "all lists of quadrilaterals in one trace, all sites, any middle of the projection", "why_tests_cant": "continuum; all numbers of segments", "anchors": ["impactutils/rupture/gc2.py:_computeGC2"]}
{"id": "C88", "title": "GC2 coordinates of sites on the trace", "statement": "A site on a segment has U equal to zero for that segment whatever its place along it, and the weights of the segments before are forgotten: T becomes a sum over the others in which the later ones alone are weighed.  For a rupture of one segment T and U are both zero, so U is not the distance along the trace (refuted with a witness).", "quantifier": "all lists of quadrilaterals in one trace and sites on one of them", "why_tests_cant": "a set of measure zero that random tests miss", "anchors": ["impactutils/rupture/gc2.py:_computeGC2"]}
{"id": "C89", "title": "GC2 coordinates about several traces", "statement": "With several traces, numbered from zero, the origin is one of the two places farthest apart among those looked at, and the axis leads from it to the other so that the sum of the traces leads along it.  Exactly the traces that lead against the axis are turned round, and begin where they lie along the axis; each segment begins where the earlier ones of its trace end.  T and U are the weighed means, rx is T, ry is U less half the length of all traces, and ry0 is how far U lies outside of the range from zero to the end of the segment listed last.  If the traces cancel out nothing is turned and every trace begins at zero.", "quantifier": "all lists of quadrilaterals with two or more traces, all sites off them, any middle of the projection", "why_tests_cant": "continuum; all numbers of traces and segments", "anchors": ["impactutils/rupture/gc2.py:_computeGC2"]}
{"id": "C90", "title": "Ends of traces and failures of the GC2 coordinates", "statement": "The search for the side of the origin ends after at most two rounds.  Traces not numbered 0, 1, 2, ... are answered with IndexError, and so is every rupture given by edges once it has two parts; traces whose ends coincide are answered with UnboundLocalError.  With one segment to a trace the two places taken are the ends of two traces that lie farthest apart; with more segments they need not be (refuted with a witness).", "quantifier": "all lists of quadrilaterals and group numbers, all edge ruptures", "why_tests_cant": "termination; all groupings", "anchors": ["impactutils/rupture/gc2.py:_computeGC2", "impactutils/rupture/edge_rupture.py:EdgeRupture._getGroupIndex", "impactutils/rupture/edge_rupture.py:EdgeRupture.getQuadrilaterals"]}
{"id": "C91", "title": "Which distances are computed", "statement": "get_distance answers exactly when every measure asked for (a name or a list of names) is one of the ten known ones, the three arrays have one shape and no computation asked for fails; then a measure is in the answer iff it was asked for or is one of the five GC2 measures when any of these was, rjb and rrup bring their variances, and each value is the one the rupture computes.  The order and repetition of the names have no effect.  Unknown names give NotImplementedError and differing shapes ConsistentLengthError; in either case the rupture's mesh spacing has already been changed.", "quantifier": "all ruptures (any five computations), names, shapes and spacings", "why_tests_cant": "all lists of names", "anchors": ["impactutils/rupture/distance.py:get_distance", "impactutils/rupture/distance.py:get_distance_measures"]}
{"id": "C92", "title": "Distance contexts", "statement": "A Distance object's context holds repi, rhypo, rrup, rjb, the variances of the latter two and every measure some ground motion model requires, and nothing else, whatever order sets are gone through in.  Anything in the list that is not a model gives TypeError, and a model requiring an unknown measure gives NotImplementedError.  Edge ruptures keep their own mesh spacing, all others are set to 0.5.", "quantifier": "all lists of models, all orders of sets, all ruptures", "why_tests_cant": "all orders of a set", "anchors": ["impactutils/rupture/distance.py:Distance._calcDistanceContext", "impactutils/rupture/distance.py:Distance.__init__"]}
{"id": "C93", "title": "Distances to point ruptures", "statement": "Joyner-Boore and rupture distance of a point rupture and their variances are read off the adjustment table along straight lines between neighbouring rows, at the epicentral distance but not below ten centimetres; the table is asked for from a little below the least to a little above the greatest of these, with coefficients chosen by region and mechanism.  The answer is unique and lies between the least and greatest of the table.  No sites, an unknown kind of distance, or a table not reaching all sites give ValueError.  Every Origin has coefficients, also after setMechanism; any other mechanism fails in the two known regions (UnboundLocalError).", "quantifier": "all origins, sites and tables with rising epicentral distances (at least two rows)", "why_tests_cant": "continuum; the adjustment is an arbitrary function", "anchors": ["impactutils/rupture/point_rupture.py:PointRupture._computeRdist", "impactutils/rupture/point_rupture.py:PointRupture.computeRjb", "impactutils/rupture/point_rupture.py:PointRupture.computeRrup"]}
{"id": "C94", "title": "Rupture contexts, epicentral and hypocentral distance", "statement": "A rupture context holds magnitude and place of the origin, strike, dip, depth and width of the rupture, and as rake the origin's own, else that of its mechanism, else None.  For an Origin made by the constructor there always is one and its rake is a number, 0 when the mechanism is ALL.  Hypocentral distance is that to the hypocentre, epicentral distance that to the place at depth zero above it with the site's depth kept; for sites at depth zero the former is never smaller and their squares differ by that of the depth, but in general it may be smaller (refuted with a witness).", "quantifier": "all origins, ruptures and sites", "why_tests_cant": "continuum", "anchors": ["impactutils/rupture/base.py:Rupture.getRuptureContext", "impactutils/rupture/base.py:Rupture.computeRhyp", "impactutils/rupture/base.py:Rupture.computeRepi"]}
{"id": "C95", "title": "What the repository says", "statement": "The pieces of a version are those of git's answers: the commit, whether files have changed, and either the tag with the prefix taken off, the number of commits since and the abbreviated commit, or, without any dash in the description, no tag and the number of all commits; the date gets a T for its first blank and loses the second.  A description is read in one way only, whatever dashes the tag has.  A description with dashes that is none, or a tag without the prefix, is reported as an error.  No repository or no answer means that the method does not apply; failures of the later commands are AttributeError, TypeError or ValueError.", "quantifier": "all behaviours of git, prefixes and directories", "why_tests_cant": "arbitrary outputs of a program", "anchors": ["impactutils/_version.py:git_pieces_from_vcs", "impactutils/_version.py:run_command"]}
{"id": "C96", "title": "The version shown", "statement": "Each of the six styles shows exactly the documented text; no style, an empty one and default are pep440, any other is ValueError, and an error is shown as unknown with the commit.  For tags without plus sign the pep440 text determines tag, distance, changes and (unless exactly at the tag) the abbreviated commit.  The long description gives back git's own.  Refuted: pep440-pre shows changed files; tags with a plus sign are told apart; a tag that is just the prefix counts as tag.", "quantifier": "all pieces, styles, tags, distances and commits", "why_tests_cant": "all texts", "anchors": ["impactutils/_version.py:render", "impactutils/_version.py:render_pep440", "impactutils/_version.py:render_pep440_pre", "impactutils/_version.py:render_pep440_post", "impactutils/_version.py:render_pep440_old", "impactutils/_version.py:render_git_describe", "impactutils/_version.py:render_git_describe_long"]}
{"id": "C97", "title": "Versions follow PEP 440", "statement": "For tags that name a release or a candidate, and without a tag, the four pep440 styles give versions of the form N(.N)*[{a|b|rc}N][.post[N]][.dev[N]][+local].  The git styles never do unless exactly at a tag.  Refuted for tags that already are post-releases.", "quantifier": "all such tags, all distances, commits and states", "why_tests_cant": "grammar over all texts", "anchors": ["impactutils/_version.py:render_pep440", "impactutils/_version.py:render_pep440_pre", "impactutils/_version.py:render_pep440_post", "impactutils/_version.py:render_pep440_old"]}
{"id": "C98", "title": "Versions from keywords", "statement": "From expanded keywords the version is the least tag, as text, that begins with the prefix; names with digits stand in when there are no tags; 0+unknown when nothing fits; unexpanded or no keywords mean that the method does not apply, missing ones KeyError.  The order of the names does not matter and a release goes before its candidates.  Refuted: a branch is not taken for a version; the later of two releases is taken.  What a line of a file assigns to a keyword is read back as written, the last such line counting.", "quantifier": "all dictionaries, prefixes and files", "why_tests_cant": "all texts", "anchors": ["impactutils/_version.py:git_versions_from_keywords", "impactutils/_version.py:git_get_keywords"]}
{"id": "C99", "title": "Finding the version", "statement": "get_versions uses the keywords if expanded, else the repository, else the nearest of the last three names of the directory that begins with impactutils-, else 0+unknown with an error.  It fails exactly when keywords are incomplete or git fails half way, though it is documented to return a default (refuted with a witness).", "quantifier": "all keywords, absolute paths and behaviours of git", "why_tests_cant": "arbitrary outputs of a program, all paths", "anchors": ["impactutils/_version.py:get_versions", "impactutils/_version.py:versions_from_parentdir", "impactutils/_version.py:get_keywords", "impactutils/_version.py:get_config"]}
{"id": "C100", "title": "Receiving stays below the local path", "statement": "Whatever bytes, pieces and silences the server sends and whatever get returns: if each name has one component (not . or ..) and no directory is left that was not entered (except at the very end), then every file written, directory made, mode and time set is at or below the local path, and every other path has the entry it had.", "quantifier": "all streams, file systems, local paths and working directories", "why_tests_cant": "arbitrary behaviour of the server", "anchors": ["impactutils/extern/scp/scp.py:SCPClient.get", "impactutils/extern/scp/scp.py:SCPClient._recv_all", "impactutils/extern/scp/scp.py:SCPClient._recv_file", "impactutils/extern/scp/scp.py:SCPClient._recv_pushd", "impactutils/extern/scp/scp.py:SCPClient._recv_popd", "impactutils/extern/scp/scp.py:SCPClient._set_dirtimes"]}
{"id": "C101", "title": "A server can write any file", "statement": "For every absolute path of a file in an existing directory, every content and every local directory asked for, there is a stream of a server that makes get return normally with that content at that path.  Also: names with .. and directories left that were not entered lead outside, and with a new local path a second item with a plain name lands beside it.", "quantifier": "all targets, contents and local directories", "why_tests_cant": "existence of an attack for all targets", "anchors": ["impactutils/extern/scp/scp.py:SCPClient._recv_file", "impactutils/extern/scp/scp.py:SCPClient._recv_popd"]}
{"id": "C102", "title": "Receiving gives what was served", "statement": "From a server that follows the protocol, any forest of files and directories (names of one component, each once, file names not ending in a blank; contents in any pieces, with or without times) arrives under an existing local directory exactly: every entry with its content, no other path changed, the modes and times set are those served and nothing else is done; the client is as new.  A single item goes to the local path itself if that is no directory.  Refuted: file names ending in a blank; access time 0.", "quantifier": "all forests, pieces, buffer sizes, file systems", "why_tests_cant": "all trees and all ways of cutting the stream", "anchors": ["impactutils/extern/scp/scp.py:SCPClient.get", "impactutils/extern/scp/scp.py:SCPClient._recv_all", "impactutils/extern/scp/scp.py:SCPClient._recv_file", "impactutils/extern/scp/scp.py:SCPClient._recv_pushd", "impactutils/extern/scp/scp.py:SCPClient._set_time"]}
{"id": "C103", "title": "When receiving fails", "statement": "If the connection ends in the middle of a file get never returns.  A message of the server, an unterminated line and silence at the start are SCPException, AssertionError and a timeout, with nothing done.  After any failure the same client fails at once and does nothing; after success it has no channel and no times left.  Refuted: after close the times left from the failed transfer are given to a file for which none were sent.  The times left for directories are set by the next transfer, which fails if such a directory is gone.", "quantifier": "all streams, clients and later calls", "why_tests_cant": "infinite runs, all histories", "anchors": ["impactutils/extern/scp/scp.py:SCPClient.get", "impactutils/extern/scp/scp.py:SCPClient._recv_all", "impactutils/extern/scp/scp.py:SCPClient._open", "impactutils/extern/scp/scp.py:SCPClient.close"]}
{"id": "C104", "title": "Palette files give the palette they list", "statement": "For a file of comments, blank lines and a table whose columns Z0, Z1, R0, G0, B0, R1, G1, B1 hold numbers (in any order, with other columns between), fromFile is the constructor applied to those columns, row by row, with the colour for missing values, name and resolution defined at the head.  A file without a table is ValueError, one without one of the columns AttributeError.  Refuted: the documented colour of the documented example.", "quantifier": "all files, column orders and readings of numbers", "why_tests_cant": "all tables and layouts", "anchors": ["impactutils/colors/cpalette.py:ColorPalette.fromFile"]}
{"id": "C105", "title": "Definitions in palette files", "statement": "Of several definitions of name, nan_color or resolution the last counts, without one there is a default; the palette made has that name, that colour for missing values and the number of colours that follows from that resolution.  The first line that can not be read decides how the file fails: IndexError without a colon, ValueError for a bad number.  Refuted: a name may contain a colon; a comment that only begins with a known word is no definition.", "quantifier": "all files", "why_tests_cant": "all sequences of lines", "anchors": ["impactutils/colors/cpalette.py:ColorPalette.fromFile"]}
{"id": "C106", "title": "Setting the range stretches the colours", "statement": "In exact arithmetic, after vmin and vmax have been set a value that divides the new range as another divided the old one gets the colour of that one, in every format, also backwards, and for a logarithmic palette in logarithms; infinities and missing values likewise.  With any rounding this holds at both ends.  The order of setting does not matter and setting back undoes it.  Refuted: the resolution is kept.", "quantifier": "all palettes, ranges, values and formats", "why_tests_cant": "all real ranges and values", "anchors": ["impactutils/colors/cpalette.py:ColorPalette.vmin", "impactutils/colors/cpalette.py:ColorPalette.vmax", "impactutils/colors/cpalette.py:ColorPalette.getDataColor"]}
{"id": "C107", "title": "Colours of arrays", "statement": "For an array of one dimension, 'mlab' gives what 'mlab' gives for each value and 'array' gives what '255' gives for each value; '255' and 'hex' are TypeError for an array that is not empty, unknown formats AttributeError.", "quantifier": "all palettes and arrays", "why_tests_cant": "all arrays", "anchors": ["impactutils/colors/cpalette.py:ColorPalette.getDataColor"]}
{"id": "C108", "title": "Written rupture files read back", "statement": "The text file writeTextFile makes, read in the old format, gives the reference and each quadrilateral as a closed polygon of its own, every coordinate rounded to four decimals (the nearest such number, ties to even); writing and reading that again changes nothing.  Each quadrilateral whose four depths agree to four decimals makes the file unreadable (ValueError).  Refuted: the default format of get_rupture reads the file as it was written (longitude and latitude are exchanged); any reference is read back (a line break or a character outside ASCII is not).", "quantifier": "all ruptures, references and readings of decimal numbers", "why_tests_cant": "all coordinates and texts", "anchors": ["impactutils/rupture/quad_rupture.py:QuadRupture.writeTextFile", "impactutils/rupture/factory.py:text_to_json"]}
{"id": "C109", "title": "The outline of an edge rupture", "statement": "For an edge rupture made from polygons, lons, lats and depths list the vertices of each polygon, first vertex last again, in order, with a not-a-number after each polygon.", "quantifier": "all lists of polygons of the expected shape", "why_tests_cant": "all polygons", "anchors": ["impactutils/rupture/edge_rupture.py:EdgeRupture.lons", "impactutils/rupture/edge_rupture.py:EdgeRupture.lats", "impactutils/rupture/edge_rupture.py:EdgeRupture.depths"]}
{"id": "C110", "title": "The slip vector of a quadrilateral", "statement": "The vector get_quad_slip returns has length one, and for slip along the strike it points to the side of the meridian to which the hanging wall moves.  Refuted: it points the way the hanging wall moves; where that moves up, the vector points down, for every quadrilateral, rake and centre, and for reverse slip on a fault striking northwards it points east where the hanging wall moves west.", "quantifier": "all quadrilaterals, rakes and middle points", "why_tests_cant": "all real coordinates", "anchors": ["impactutils/rupture/utils.py:get_quad_slip", "impactutils/rupture/utils.py:get_local_unit_slip_vector"]}
{"id": "C111", "title": "GeoNames files give the cities they list", "statement": "From a file whose lines all can be read, fromGeoNames makes a table with one city per line whose name, without blanks around it, is not empty and in ASCII, in the order of the file, with that name, the country, the coordinates, the population and whether the feature code is PPLC or PPLA; the table has all the columns that the searches need.  Every line says one thing or fails in one way, and the first that fails decides the exception: IndexError for too few columns, ValueError for a bad number.  Refuted: blank lines are passed over; the folder of a downloaded file is always removed.", "quantifier": "all texts of files and readings of numbers", "why_tests_cant": "all files", "anchors": ["impactutils/mapping/city.py:Cities.fromGeoNames", "impactutils/mapping/city.py:Cities.getCities"]}
{"id": "C112", "title": "Saved tables of cities", "statement": "A table saved and loaded again has the old row labels as a first column, then the same columns in order: integers and truth values as they were, floats as the reader reads what the writer shows, texts as they were, quotation marks and commas included, except that those pandas takes for missing are missing.  Whatever is loaded has the columns name, lat and lon, and columns as long as the list of its rows.  Refuted: the table is the one that was saved (never); country code NA, of Namibia, survives; names that are numbers stay texts.  A newline more or less at the end of the file makes no difference, and a file of blank lines raises ValueError.", "quantifier": "all tables and ways to show and read numbers", "why_tests_cant": "all tables and texts", "anchors": ["impactutils/mapping/city.py:Cities.save", "impactutils/mapping/city.py:Cities.fromCSV"]}
{"id": "C113", "title": "Attachments arrive whole and in order", "statement": "A message with attachments has the subject, recipient and sender in its header, and the Bcc list, visible to all; between its boundaries are first the text and then one part per attachment in order, under the last component of its path, with exactly the bytes of the file in base64 lines of at most 76 characters, or, for an uncompressed text file, its text with line feeds, as it is if ASCII and else as base64 of UTF-8.  The lines can be read in that way only.  The first attachment that can not be opened or decoded decides the exception.  Refuted: the line ends of text files are kept; files of the same name in different folders can be told apart.", "quantifier": "all texts, lists of attachments, file contents, guesses of types, boundaries that are no line of the texts", "why_tests_cant": "all files and lists of attachments", "anchors": ["impactutils/transfer/emailsender.py:_get_encoded_message"]}
{"id": "C114", "title": "Which messages can be sent", "statement": "A message with attachments can be encoded for sending if and only if its text is ASCII; one without attachments always can, and its text is read back.  Refuted: a text that can be sent alone can be sent with an attachment.", "quantifier": "all texts and attachments", "why_tests_cant": "all texts", "anchors": ["impactutils/transfer/emailsender.py:_get_encoded_message", "impactutils/transfer/emailsender.py:EmailSender.send", "impactutils/transfer/emailsender.py:_send_email"]}
{"id": "C115", "title": "The address of the time zone data", "statement": "get_recent_timezone_data reads the archive from the first link of the release page whose address has the text timezones.shapefile.zip, taken relative to github.com; the call depends on no other address, an error of this request is the error of the call with nothing changed, and what it gives is stored in the output directory under the name timezones.shapefile.zip.  A page without links is an error that changes nothing.  If no link has the text, the last link of the page is read as it stands.  Refuted: an error is raised if the page does not have the link.  The page asked for is that of the latest release; an error of the server or of the decoding is raised and nothing is written.", "quantifier": "all pages, answers of the web, file systems", "why_tests_cant": "all pages and answers", "anchors": ["impactutils/time/timeutils.py:get_recent_timezone_data"]}
{"id": "C116", "title": "The time zone data is unpacked", "statement": "For an archive of files in one folder, with plain names, each once, the files are in the output directory afterwards with their contents, the folder is not, the archive stays, everything else is unchanged, and the result is the path of the last file ending in .shp, or None if there is none.", "quantifier": "all such archives and all file systems with the output directory and without the folder", "why_tests_cant": "all archives and file systems", "anchors": ["impactutils/time/timeutils.py:get_recent_timezone_data"]}
{"id": "C117", "title": "What unpacking time zone data can destroy", "statement": "If all names in the archive are relative and without \"..\", nothing outside the output directory changes, whatever the outcome.  After a call that succeeds, the folder of the last entry is no directory and nothing is below it.  Refuted: that this is the archive's own folder. If the last entry has no folder the whole output directory is removed, with the shapefile in the result; and for every directory there is an archive of one entry, with an absolute name, that removes it.  An archive that begins with an entry for its folder is refused with an error, and so is an empty one (UnboundLocalError).", "quantifier": "all archives, file systems and output directories", "why_tests_cant": "all archives and file systems", "anchors": ["impactutils/time/timeutils.py:get_recent_timezone_data"]}
{"id": "C118", "title": "Drawing the same map again", "statement": "Every city drawn by drawCities lies strictly east of the westernmost and strictly north of the southernmost city of the object's table.  The next call starts from the cities that were drawn: it cannot fail if the labels have numbers for edges, and after as many calls as there are cities nothing is drawn.  Refuted: that a second call draws the same map, and that the most populous city is drawn.", "quantifier": "all tables whose coordinates are doubles (or missing), all labels and map extents, all numbers of calls, any sort by population; in binary64 arithmetic", "why_tests_cant": "all tables and all sequences of calls", "anchors": ["impactutils/mapping/mercatormap.py:MercatorMap.drawCities", "impactutils/mapping/mercatormap.py:MercatorMap.__init__"]}
{"id": "C119", "title": "The middle of the map and the cities on it", "statement": "If the map does not cross the date line, or ends at a western longitude, the central longitude is the middle of the map; the cities of a map that does not cross it are exactly those within the bounds (west and south edges excluded), none farther from the middle than half the width.  Refuted: a map across the date line that ends at longitude 0 or east of it is centred on the opposite meridian, and a map across the date line has no cities at all.", "quantifier": "all bounds and all tables of cities", "why_tests_cant": "all bounds and tables", "anchors": ["impactutils/mapping/mercatormap.py:MercatorMap.drawCities", "impactutils/mapping/mercatormap.py:MercatorMap.__init__"]}
{"id": "C120", "title": "The raster cell in binary64", "statement": "With each operation of the index arithmetic rounded to binary64, get_timezone_code still reads a cell inside the raster, and the place (or the nearest place of the extent) lies in what the rounding method reads that cell for, but for 2^-42 degrees.  Refuted: that the cell read contains the place.  On a raster across the 180th meridian every place is looked up at one of the two edges.", "quantifier": "all rasters with extents and resolutions that are doubles of at most 360 degrees and do not cross the date line, all places, all three methods", "why_tests_cant": "all places and rasters", "anchors": ["impactutils/time/timeutils.py:TimeConversion.get_timezone_code"]}
{"id": "C121", "title": "The middle of two places", "statement": "get_middle_point gives a place half the distance of the two from each of them; an orthographic projection shows the north-west and the south-east corner of its box, at opposite points of the map.", "quantifier": "all pairs of places, including equal and opposite ones, and all implementations of point_at that go the distance asked for along the great circle", "why_tests_cant": "all pairs of places", "anchors": ["impactutils/extern/openquake/utils.py:get_middle_point", "impactutils/extern/openquake/utils.py:OrthographicProjection.__init__"]}
{"id": "C122", "title": "Points", "statement": "Point.from_vector gives the point of a vector exactly when the vector is longer than 0 and shorter than 6379.848 km, and raises ValueError otherwise.  Point.point_at leads as far, as deep and in the direction asked for, and raises ValueError exactly for depths that are not allowed.  closer_than and distance_to_mesh answer for each point of the mesh; equally_spaced_points gives all points between or ValueError.", "quantifier": "all vectors, points, distances and meshes", "why_tests_cant": "all points", "anchors": ["impactutils/extern/openquake/point.py:Point.from_vector", "impactutils/extern/openquake/point.py:Point.point_at", "impactutils/extern/openquake/point.py:Point.closer_than", "impactutils/extern/openquake/point.py:Point.distance_to_mesh", "impactutils/extern/openquake/point.py:Point.equally_spaced_points"]}
{"id": "C123", "title": "The nearest object", "statement": "GeographicObjects.get_closest (with rtree) gives one of the objects with its distance, nearest in straight-line distance up to the cosine of the widest angle to the middle of the objects' box; no objects, or a place more than 90 degrees from that middle, raise ValueError.  Refuted: that the nearest object is found.", "quantifier": "all lists of objects, all places, all indexes that find a nearest point of the plane", "why_tests_cant": "all lists and places", "anchors": ["impactutils/extern/openquake/utils.py:GeographicObjects.get_closest", "impactutils/extern/openquake/utils.py:GeographicObjects.__init__"]}
{"id": "C124", "title": "Planes fitted to points", "statement": "plane_fit gives the mean of the points and a unit normal such that no plane has a smaller sum of squared distances; points that lie in a plane all lie in the plane found.  It raises AssertionError exactly for fewer than four points.  normalized gives the unit vector in the direction of every vector but zero.", "quantifier": "all lists of points of space and all singular value decompositions of their matrix", "why_tests_cant": "all lists of points, all planes", "anchors": ["impactutils/extern/openquake/utils.py:plane_fit", "impactutils/extern/openquake/utils.py:normalized"]}
{"id": "C125", "title": "Lines and polygons that intersect themselves", "statement": "With closed_shape, line_intersects_itself answers False exactly if the sides of the projected polygon meet only in the corners between them; without, exactly if the projected line is simple.  Fewer than four places give False, lists of different lengths AssertionError.  Refuted: that a line whose last place repeats the first intersects itself.", "quantifier": "all lists of places that can be projected without repeated neighbours, all tests for simple lines", "why_tests_cant": "all lines and polygons", "anchors": ["impactutils/extern/openquake/utils.py:line_intersects_itself"]}
{"id": "C126", "title": "Written version files are read back", "statement": "For all versions, write_to_version_file followed by versions_from_file gives the five entries back, whatever characters the texts contain and also after the line ends were changed to CR LF.  The file is ASCII.  A file that is not there is not written (FileNotFoundError); a file without one of the two marks is passed over.  Between the marks there may be any JSON: it is read, or json.loads raises; blanks around it do not matter, anything else after it is a ValueError.", "quantifier": "all version texts, revision ids, errors and dates", "why_tests_cant": "all texts with all characters", "anchors": ["versioneer.py:write_to_version_file", "versioneer.py:versions_from_file", "versioneer.py:SHORT_VERSION_PY"]}
{"id": "C127", "title": "Importing a written version file", "statement": "get_versions() of the written file gives the same entries if the texts have no quotation mark, backslash or control character and no three apostrophes.  Refuted for other texts: ValueError, another version, or a text literal that ends early.  Escapes between the quotes are read as the language has them; other backslashes stay.", "quantifier": "all version texts", "why_tests_cant": "all texts", "anchors": ["versioneer.py:SHORT_VERSION_PY", "versioneer.py:write_to_version_file"]}
{"id": "C128", "title": "The version of setup.py", "statement": "versioneer's get_versions asks, in this order: keywords filled in by git-archive, the written version file, git, the name of the directory and its two parents; the first that applies decides, and otherwise the version is 0+unknown.  In a distribution it is the version written.  In a checkout it is the same as the package's own get_versions.  A configuration without git, versionfile_source or tag_prefix raises AssertionError; a quoted empty prefix is empty.  get_root gives the working directory if it has setup.py or versioneer.py, else that of the script, else an error.  Of two members with the same key the later one counts, and a missing one is a KeyError.", "quantifier": "all configurations, directories, file contents and behaviours of git", "why_tests_cant": "all contents of the file, all answers of git", "anchors": ["versioneer.py:get_versions", "versioneer.py:get_version", "versioneer.py:get_root", "versioneer.py:get_config_from_root"]}
{"id": "C129", "title": "Files changed by versioneer.py setup", "statement": "setup keeps the content of .gitattributes, MANIFEST.in and __init__.py and only appends.  If a file ends with a newline the version file is marked, the two files are included afterwards, and a second run changes nothing; a third run never does.  __init__.py gets the lines once.  scan_setup_py has no complaint exactly if setup.py has the three calls and not the old settings.  Refuted: the same for files without a newline at the end.", "quantifier": "all contents of the files, all names without blanks", "why_tests_cant": "all contents of the files", "anchors": ["versioneer.py:do_setup", "versioneer.py:do_vcs_install", "versioneer.py:scan_setup_py"]}
{"id": "C130", "title": "Distributions tell the version of their tree", "statement": "An sdist is named after the version of the tree it is made from, changes only the version file among the copied files, and raises FileNotFoundError if that is not among them.  Wherever it is unpacked, whatever git says there, with Unix or Windows line ends, get_version gives the version in its name; likewise for archives made from unpacked archives, to any depth.  build_py changes only the configured file, which imports as the version of the tree; without versionfile_build nothing changes.  The version command shows the error only if there is one.", "quantifier": "all trees, configurations, behaviours of git, chains of archives", "why_tests_cant": "all versions, all chains of archives and machines", "anchors": ["versioneer.py:get_cmdclass", "versioneer.py:write_to_version_file", "versioneer.py:get_version"]}
{"id": "C131", "title": "Pictures of ruptures", "statement": "plot_rupture_wire3d draws one line for each quadrilateral, through its four corners and back to the first, at minus their depths; it raises TypeError for axes without depth and for a PointRupture.  map_rupture shows an extent whose sides are five degrees beyond the outermost vertices, raises TypeError for a PointRupture and ValueError without vertices, and draws the outlines.  Refuted: separate outlines are drawn separately (the last vertex of each is joined to the first of the next); a rupture across the date line gets an extent within -180 and 180.", "quantifier": "all ruptures", "why_tests_cant": "all numbers of groups and vertices; the picture is not looked at by a test", "anchors": ["impactutils/rupture/plotrupture.py:plot_rupture_wire3d", "impactutils/rupture/plotrupture.py:map_rupture"]}
{"id": "C132", "title": "Columns of a table of cities", "statement": "Cities and MapCities accept a table exactly if it has the columns name, lat and lon and raise KeyError otherwise; getCities gives the three columns; choosing rows keeps the columns.  project sets x and y to the projected coordinates, leaves the other columns as they are and in order, is idempotent and raises ValueError for arrays of another length.  MapCities lists the fonts in order, with none lost; limitByMapCollision raises NotImplementedError.  Refuted: sortByColumns sorts (it always raises TypeError).", "quantifier": "all tables, projections, masks and lists of fonts", "why_tests_cant": "all sets and orders of columns", "anchors": ["impactutils/mapping/city.py:Cities", "impactutils/mapping/mapcity.py:MapCities"]}
{"id": "C133", "title": "Labels of a map", "statement": "On whichever axes, a label begins four pixels to the right of its city and is centred on it.  If the axes of the map are at least as large as the hidden axes on which collisions are looked for, no two labels drawn by drawCities cover a common pixel.  Refuted: the same for smaller axes (dimensions other than the default); getAxesClone gives the hidden axes (it raises AttributeError).  The other getters give attributes of the map. figure, axes, proj, geoproj, getFigureClone and getFonts give the attribute of that name.", "quantifier": "all projections, sizes of texts, axes, tables of cities", "why_tests_cant": "all positions and sizes of labels; the picture is not looked at by a test", "anchors": ["impactutils/mapping/mercatormap.py:MercatorMap.renderRow", "impactutils/mapping/mercatormap.py:MercatorMap.getCityEdges", "impactutils/mapping/mercatormap.py:MercatorMap.drawCities", "impactutils/mapping/mercatormap.py:MercatorMap.getAxesClone"]}
{"id": "C134", "title": "Sending over scp, step by step", "statement": "Whatever a server answers, what put has sent is a prefix of a script that depends on the files only; put returns exactly when all of it was sent, and then the channel is closed; otherwise it is left used and every further put or get fails before anything is sent, until close or the end of the with block.  After the first answer that is not a zero byte (or none in time, or a closed channel) nothing is sent and SCPException is raised; a missing file raises after the earlier files were sent completely.  For a file the script is: if times are kept one line with them; one line with four octal digits (st_mode modulo 4096), the size and the name; the content in pieces of at most buff_size bytes; a zero byte; an answer is waited for after each line and after the zero byte.  The progress function is called with 0 and then growing positions up to the size, (1, 1) for an empty file.  For directories the steps are those of C33.  What was sent for files, given to get, arrives with the same contents, permissions and times.  Refuted: times are sent only with a file; positions reported are at most the size. The size announced is that of os.stat whatever can be read; a directory that is gone stops the sending; leaving a directory is one line and one answer; entering a with block changes nothing for put.", "quantifier": "all files, sizes, modes, times, buffer sizes and sequences of answers", "why_tests_cant": "all points at which a server may refuse; all contents and modes", "anchors": ["impactutils/extern/scp/scp.py:SCPClient.put", "impactutils/extern/scp/scp.py:SCPClient._send_files", "impactutils/extern/scp/scp.py:SCPClient._read_stats", "impactutils/extern/scp/scp.py:SCPClient._send_time", "impactutils/extern/scp/scp.py:SCPClient._recv_confirm", "impactutils/extern/scp/scp.py:SCPClient.__enter__"]}
{"id": "C135", "title": "Counts and arrays of a rupture of quadrilaterals", "statement": "For every rupture that can be built from polygons: getNumQuads is the sum over the polygons of a number that depends on its length only (nothing below four vertices, one for four, else half the distinct vertices less one; for polygons along two edges: vertices of the top edge less one); the group index has one number per quadrilateral; getNumGroups is the number of polygons with four vertices or more, and also the number of not-a-numbers in the outline given by lons, lats and depths; getRuptureAsArrays gives longitudes, latitudes and depths of the polygons without the repeated vertex, each polygon ended by not-a-number, three arrays of one length from which the polygons can be recovered; getDeps is the third. Refuted: there are as many groups as separated parts of the arrays.", "quantifier": "all lists of polygons for which the constructor returns", "why_tests_cant": "all numbers and lengths of polygons, also degenerate ones", "anchors": ["impactutils/rupture/quad_rupture.py:QuadRupture.getNumGroups", "impactutils/rupture/quad_rupture.py:QuadRupture.getNumQuads", "impactutils/rupture/quad_rupture.py:QuadRupture.getDeps", "impactutils/rupture/quad_rupture.py:QuadRupture.getRuptureAsArrays", "impactutils/rupture/quad_rupture.py:QuadRupture._getGroupIndex"]}
{"id": "C136", "title": "Local-time objects over their life", "statement": "Making a LocalTime or LocalTimeNE object succeeds exactly when the shape file opens and the search for the zone answers, and raises their errors otherwise. Over any sequence of updates, failing ones included, getLocalTime and getUTCOffset give the answer to the latest question that had one, the same as a new object made for that question; update raises what making a new object would raise and then leaves both getters as they were; the local time is always the instant of that question plus the offset. Refuted: getTimeZone returns the zone (it always raises AttributeError); the instant and place held belong to the local time held; the offset is always a duration.", "quantifier": "all shape files, zone databases, sequences of instants and places", "why_tests_cant": "all histories of an object, with errors in between", "anchors": ["impactutils/time/timeutils.py:LocalTime.__init__", "impactutils/time/timeutils.py:LocalTime.update", "impactutils/time/timeutils.py:LocalTime.getLocalTime", "impactutils/time/timeutils.py:LocalTime.getUTCOffset", "impactutils/time/timeutils.py:LocalTime.getTimeZone", "impactutils/time/timeutils.py:LocalTimeNE.__init__"]}
{"id": "C137", "title": "Texts of a point", "statement": "str and repr of a Point are the same text: latitude, longitude and depth as the nearest numerals with six, six and four decimals, with a minus sign for negative numbers only. Points that print alike differ by at most a millionth of a degree in longitude and latitude and a ten-thousandth of a kilometre in depth, and are equal to == (not !=). != is the opposite of ==, and nothing equals None. wkt2d of two points is the same exactly when longitude and latitude are, whatever the depths. Refuted: equal points print alike.", "quantifier": "all finite real coordinates", "why_tests_cant": "all pairs of coordinates on either side of a rounding boundary", "anchors": ["impactutils/extern/openquake/point.py:Point.__str__", "impactutils/extern/openquake/point.py:Point.__repr__", "impactutils/extern/openquake/point.py:Point.wkt2d", "impactutils/extern/openquake/point.py:Point.__ne__", "impactutils/extern/openquake/point.py:Point.__eq__"]}
