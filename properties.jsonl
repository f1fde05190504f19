{"id": "C01", "title": "Propagation is history independent", "statement": "Calling sgp4 on a record after any earlier sequence of sgp4 calls on the same record (at any times, successful or failing) returns exactly the same position/velocity or error as calling it on the record as it was before those calls.", "quantifier": "every record (initialised or not), every finite list of earlier times, every time, every arithmetic/libm", "why_tests_cant": "the earlier call history is unbounded and sgp4 mutates the record in place; a test samples a few orders", "anchors": ["src/propogation/sgp4.rs: sgp4"]}
{"id": "C02", "title": "Propagation only touches its scratch fields", "statement": "sgp4 never changes the orbital elements, epoch, identification or initialised coefficients of a record: only t and error change, plus (deep-space records only) aycof, xlcof, con41, x1mth2, x7thm1.", "quantifier": "every record, every time, every outcome", "why_tests_cant": "107 fields times every path through the function, including each error return", "anchors": ["src/propogation/sgp4.rs: sgp4", "src/io.rs: Satrec"]}
{"id": "C03", "title": "Error flag and returned error always agree", "statement": "After sgp4, the record's error field is 0 exactly when Ok was returned, otherwise it is the code() of the returned error; codes are pairwise distinct and lie in {1,2,3,4,6}. Same for sgp4init.", "quantifier": "every record, every time, every set of init options", "why_tests_cant": "must hold on every return path and for every input", "anchors": ["src/propogation/sgp4.rs: sgp4, SGP4Error::code", "src/propogation/sgp4init.rs: sgp4init"]}
{"id": "C04", "title": "Error conditions are exactly the documented ones, in order", "statement": "sgp4 reports Nm exactly when the stored mean motion is <= 0; otherwise Eccentricty exactly when the drag-adjusted eccentricity is >= 1 or < -0.001; Ep exactly when (deep space) the periodics push eccentricity outside [0,1]; Pl when the semi-latus rectum is negative; DecayCondition when the radius is below one Earth radius; otherwise Ok.", "quantifier": "every record and time", "why_tests_cant": "five cascaded guards over real-valued state; also depends on what the deep-space path feeds into the first guard", "anchors": ["src/propogation/sgp4.rs: sgp4 lines 246-460"]}
{"id": "C05", "title": "Initialisation does not depend on the record's previous contents", "statement": "sgp4init called with the same options on any two records returns the same result and leaves every field it owns equal; the ten identification/epoch fields it does not own (name, satnum, epochyr, epochdays, ndot, nddot, a, alta, altp, jdsatepoch) are left as they were.", "quantifier": "every pair of prior records, all options", "why_tests_cant": "stale-field bugs need a particular previous content to show", "anchors": ["src/propogation/sgp4init.rs: sgp4init"]}
{"id": "C06", "title": "Near-earth/deep-space selection and simplified-drag flag", "statement": "After a non-NaN initialisation the method is deep space exactly when the un-Kozai'd period is >= 225 minutes; isimp is 1 exactly when the method is deep space or perigee is below 220 km; whenever isimp is 1 the higher-order drag coefficients d2,d3,d4,t3cof,t4cof,t5cof are zero; resonance flag irez is 0, 1 or 2 and is 0 for near-earth records.", "quantifier": "every options value", "why_tests_cant": "decision logic over continuous inputs", "anchors": ["src/propogation/sgp4init.rs: lines 337-713", "src/propogation/dsinit.rs: lines 309-316"]}
{"id": "C07", "title": "A record obtained from a TLE is ready to use", "statement": "Whenever twoline2satrec returns Ok, the record has error 0, init flag N, t = 0, operation mode I, name None, and its epoch/identification fields are those parsed from the lines.", "quantifier": "all pairs of lines", "why_tests_cant": "quantifies over all texts", "anchors": ["src/io.rs: twoline2satrec"]}
{"id": "C08", "title": "propogate_datetime is sgp4 at the elapsed minutes and leaves the caller's record alone", "statement": "propogate_datetime(rec, time) returns exactly what sgp4 returns on a copy of rec at (JD(time) - rec.jdsatepoch)*1440 minutes; in exact arithmetic a whole-second UTC instant k seconds after the epoch yields propagation at k/60 minutes, for every calendar date from 1900-03-01 to 2100-02-28; for a record read from a TLE the binary64 time is within 2^-18 minutes of the minutes elapsed since the epoch written in the TLE.", "quantifier": "every record, every date and time in range, any number of repeated calls", "why_tests_cant": "every calendar date and every order of calls", "anchors": ["src/propogation/mod.rs: propogate_datetime", "src/ext.rs: jday"]}
{"id": "C09", "title": "Sub-second part of a timestamp is ignored (defect)", "statement": "A user expects two different instants within the same second to give the results for those two instants. They do not: any two timestamps that agree down to the second give the same Julian date, the same sidereal time and the same propagated position, velocity or error, whatever their sub-second parts.", "quantifier": "every pair of timestamps sharing a second, every record, every arithmetic", "why_tests_cant": "needs pairs of inputs over every record", "anchors": ["src/propogation/mod.rs: propogate_datetime", "src/ext.rs: jday_datetime", "src/propogation/gstime.rs: gstime_datetime"]}
{"id": "C10", "title": "A successful propagation is never below the Earth's surface radius", "statement": "If sgp4 returns Ok then the returned position is at distance >= 6378.137 km from the Earth's centre (exact arithmetic); a computed radius below that is always reported as DecayCondition.", "quantifier": "every record and time", "why_tests_cant": "continuous input space", "anchors": ["src/propogation/sgp4.rs: lines 404-465"]}
{"id": "C11", "title": "Position and velocity share one orbital plane and frame", "statement": "The returned position and velocity are combinations of one orthonormal pair (u,v): position = R*mrt*u, velocity = K*(mvt*u + rvdot*v), so |r| = R*|mrt|, r.v = R*K*mrt*mvt and r x v is along the normal (sin i sin node, -sin i cos node, cos i).", "quantifier": "every record and time (exact arithmetic)", "why_tests_cant": "algebraic identity over all inputs", "anchors": ["src/propogation/sgp4.rs: lines 420-446"]}
{"id": "C12", "title": "Kepler's equation solver", "statement": "The solver stops after at most 10 corrections, each of magnitude at most 0.95, for every input including NaN; when it stops because the last correction was below 1e-12, the sine/cosine it returns belong to an angle E whose Kepler residual |u - (E - axnl sin E + aynl cos E)| is at most 1e-12*|1 - axnl cos E - aynl sin E|; for axnl^2+aynl^2 < 1 the equation has exactly one solution, and for eccentricity up to 0.77 the solver always stops on the 1e-12 criterion and is then within 9e-12 of the solution; up to 1/2 it does so within 7 corrections (exact arithmetic).", "quantifier": "all u, axnl, aynl", "why_tests_cant": "termination and residual bound for every input", "anchors": ["src/propogation/sgp4.rs: lines 352-374"]}
{"id": "C13", "title": "Drag does not change the state at epoch", "statement": "Two sets of initial options that differ only in the drag term bstar give the same position, velocity or error at t = 0, from initialisation itself and from any later propagation to t = 0, near-earth or deep-space (exact arithmetic).", "quantifier": "all element sets, all pairs of drag values", "why_tests_cant": "relational property over pairs of inputs", "anchors": ["src/propogation/sgp4init.rs", "src/propogation/sgp4.rs"]}
{"id": "C14", "title": "Kepler's third law ties mean motion and semi-major axis", "statement": "The semi-major axis and mean motion of a record satisfy Kepler's third law after parsing, after initialisation (with the mean motion recovered by Brouwer's formula) and at every propagation: in initialisation ao^3 * no^2 = XKE^2, ainv*ao = 1, rp = ao(1-e), posq = (ao(1-e^2))^2, con41 = 3cos^2 i - 1, con42 = 1 - 5cos^2 i; in parsing a^3*(no*TUMIN)^2 = 1 and alta+1, altp+1 are a(1+e), a(1-e).", "quantifier": "all positive mean motions, all eccentricities and inclinations (exact arithmetic)", "why_tests_cant": "identities over continuous inputs", "anchors": ["src/propogation/initl.rs: initl", "src/io.rs: parse_satrec lines 406-411"]}
{"id": "C15", "title": "Sidereal time is an angle in [0, 2pi)", "statement": "gstime returns a value in [0, 2pi) congruent modulo 2pi to the IAU-82 polynomial (exact arithmetic), for a timestamp between 1900-03-01 and 2100-02-28 the polynomial at the Julian date counted from 2000-01-01, and in binary64 a value in [0, TWO_PI] or NaN, not NaN for any Julian date up to 2^290; initialisation's gsto is likewise in [0,2pi) in every operation mode.", "quantifier": "every Julian date", "why_tests_cant": "all dates; wrap-around boundary", "anchors": ["src/propogation/gstime.rs: gstime", "src/propogation/initl.rs: lines 134-154"]}
{"id": "C16", "title": "Deep-space resonance integrator is restartable", "statement": "Feeding back the integrator state (atime, xli, xni) returned by dspace into later dspace calls never changes any returned element, whatever sequence of times is requested: every call returns what a call from the epoch state returns.", "quantifier": "every finite sequence of times (forward, backward, sign changes), all coefficients", "why_tests_cant": "history quantification; a test samples a few sequences", "anchors": ["src/propogation/dspace.rs: dspace"]}
{"id": "C17", "title": "Deep-space integration takes |t|/720 steps and terminates, except for absurd times", "statement": "In exact arithmetic the deep-space integrator returns for every time after floor(|t|/720) steps from the epoch, so every propagation returns. In binary64 every propagation to a finite |t| <= 2^52 minutes returns within |t|/719 + 1 steps. For an infinite time, or a finite one of at least 2^71 minutes, propagation of a resonant deep-space record never returns (a defect: the clock stops advancing).", "quantifier": "every record, every time, every mathematical library", "why_tests_cant": "termination for all inputs; a test can not observe divergence", "anchors": ["src/propogation/dspace.rs: lines 222-293", "src/propogation/sgp4.rs: sgp4"]}
{"id": "C18", "title": "Deep-space secular and resonance terms do not reach the propagated state (defect)", "statement": "A user expects the secular and resonance rates of deep-space orbits to move the satellite. They do not: replacing all resonance coefficients, the rates of inclination, node, perigee and mean anomaly, the sidereal time at epoch and the integrator state by arbitrary values never changes the position, velocity or error sgp4 returns; only the eccentricity rate is used.", "quantifier": "all records, all times, all replacement values, every arithmetic", "why_tests_cant": "non-interference over all inputs and all replacement values", "anchors": ["src/propogation/sgp4.rs: lines 188-244"]}
{"id": "C19", "title": "Lunar-solar periodics of node, perigee, mean anomaly and eccentricity do not reach the propagated state (defect)", "statement": "A user expects the lunar-solar periodics to move the satellite. Replacing all periodic coefficients of node, argument of perigee and mean anomaly by arbitrary values never changes what sgp4 returns, and replacing those of the eccentricity can only turn the Ep error on or off; of the corrected elements only the inclination is used.", "quantifier": "all records, all times, all replacement values, every arithmetic", "why_tests_cant": "non-interference over all inputs and all replacement values", "anchors": ["src/propogation/sgp4.rs: lines 295-331", "src/propogation/dpper.rs: dpper"]}
{"id": "C20", "title": "Periodics at initialisation are the identity", "statement": "dpper called in init mode returns the eccentricity, inclination, node, argument of perigee and mean anomaly it was given, so initialisation stores the elements of the element set unchanged in deep space too.", "quantifier": "every record and element set, every arithmetic", "why_tests_cant": "every record content and option value", "anchors": ["src/propogation/dpper.rs: dpper", "src/propogation/sgp4init.rs: sgp4init"]}
{"id": "C21", "title": "Lyddane branch preserves longitude consistency", "statement": "Outside init mode dpper adds its corrections to eccentricity and inclination directly; for inclination >= 0.2 rad the corrections to argument of perigee, node and mean anomaly satisfy the direct formulas, and below it the returned node has the direction of the corrected (alfdp, betdp) vector, lies within pi of the input node (reduced modulo 2pi), and mp + argpp + cos(i)*node equals the corrected longitude; in init mode it returns its inputs unchanged.", "quantifier": "all records and elements (exact arithmetic)", "why_tests_cant": "continuous inputs, branch boundaries", "anchors": ["src/propogation/dpper.rs: lines 220-284"]}
{"id": "C22", "title": "jday is the Julian date", "statement": "For every Gregorian calendar date from 1900-03-01 to 2100-02-28 and every time of day, jday equals the Julian date obtained by counting days from 2000-01-01 (JD 2451544.5); outside that range it is off by exactly the number of missing/extra century leap days. In binary64 the result is exact at midnight for all |year| <= 10^6, and within 2^-31 days for every whole second of the years -4000 to 6000.", "quantifier": "every date", "why_tests_cant": "all calendar dates, century boundaries", "anchors": ["src/ext.rs: jday"]}
{"id": "C23", "title": "days2mdhms returns the calendar date of a day-of-year", "statement": "For years 1901..2099 and every day-of-year value in [1, length of year + 1), days2mdhms returns a valid month 1..12, a valid day of that month, hour 0..23, minute 0..59, second in [0,60) and these reconstruct the day-of-year exactly (exact arithmetic); in binary64 the field ranges also hold and the reconstruction is within 2^-52 days. In century years that are not leap years (1900 and 2100 are inside the documented range) 1 March is reported as 29 February and every later day as the day before (a defect).", "quantifier": "every year and every real day-of-year", "why_tests_cant": "all values incl. month ends and floating boundaries", "anchors": ["src/ext.rs: days2mdhms"]}
{"id": "C24", "title": "Epoch of a TLE", "statement": "The parsed epoch Julian date is the JD of 1 January of the epoch year plus (epochdays - 1), where two-digit years 57..99 mean 1957..1999 and 00..56 mean 2000..2056 (exact arithmetic, any day number); in binary64 it is within 2^-30 days of that for day numbers inside the year.", "quantifier": "all element lines that decode, all day numbers", "why_tests_cant": "all values", "anchors": ["src/io.rs: parse_satrec lines 413-430"]}
{"id": "C25", "title": "Each parsed field depends only on its own columns", "statement": "parse_satrec and twoline2satrec read only byte columns 2-7, 18-20, 20-32, 33-43, 44-50, 50-52, 53-54, 54-59, 59-61 of line 1 and 8-16, 17-25, 26-33, 34-42, 43-51, 52-63 of line 2: two pairs of lines agreeing on those columns give the same outcome (record, error or panic). When both pairs decode, each field of the record depends only on its own columns (satellite number 2-7, epoch year 18-20, epoch day 20-32, ...), whatever the other columns hold.", "quantifier": "all pairs of line pairs, every arithmetic", "why_tests_cant": "relational property over all texts", "anchors": ["src/io.rs: parse_satrec"]}
{"id": "C26", "title": "Checksum and satellite-number consistency are not verified (defect)", "statement": "A user expects a TLE whose checksum digit is wrong, or whose two lines carry different satellite numbers, to be rejected. It is not: the checksum columns and the satellite number of line 2 are never read, so replacing them by anything leaves the outcome unchanged; every set that is accepted is still accepted, with the same record, after its checksums are spoiled or its second satellite number replaced.", "quantifier": "all TLEs, all replacements of the unread columns", "why_tests_cant": "the claim is over every text and every corruption of it", "anchors": ["src/io.rs: parse_satrec, twoline2satrec"]}
{"id": "C27", "title": "When parsing panics (defect: truncated lines)", "statement": "A user expects parsing to return a value or an error on every text. It does so only when the lines are long enough: twoline2satrec never panics on ASCII lines of at least 61 and 63 bytes; when a line is shorter than that and every field before the cut is readable it panics; parse panics exactly when there are 2 or 3 non-blank lines with the right line numbers and either decoding panics or decoding succeeds and the name line is '0' alone or '0' followed by a non-ASCII character; parse_multiple panics only when two consecutive lines do so when decoded, or decode under such a name line, and always when the first element line of the first group is shorter than 7 bytes.", "quantifier": "every string", "why_tests_cant": "quantifies over every text, including truncated and non-ASCII ones", "anchors": ["src/io.rs: parse_satrec, parse, parse_multiple"]}
{"id": "C28", "title": "A well-formed TLE decodes to the values written in it", "statement": "For every element set printed in the TLE column format whose BSTAR and second-derivative mantissas have no leading zero and whose second derivative is not negative, parse_satrec succeeds; over the reals every numeric field is exactly the decimal value in its columns times its documented unit factor, and in f64 it is the nearest double of that decimal value with the unit factor applied to it.", "quantifier": "all digit strings, signs and blanks in all fields of the column format", "why_tests_cant": "10^50 texts; leading-zero mantissas and negative second derivatives are decoded wrongly or rejected (separate properties)", "anchors": ["src/io.rs: parse_satrec"]}
{"id": "C29", "title": "BSTAR and second-derivative mantissas with leading zeros are read 10^z too large", "statement": "A BSTAR field of the form SDDDDD-E is meant as S0.DDDDD x 10^-E, but the decoder drops leading zeros of the mantissa (a defect): with z leading zeros the record holds 10^z times the written value, for BSTAR and for the second derivative, so any z > 0 gives a wrong value.", "quantifier": "every decodable element set, mantissa, exponent and number of leading zeros", "why_tests_cant": "all digit strings; sample TLEs have normalised mantissas, which hide the defect", "anchors": ["src/io.rs: parse_satrec lines 373-392"]}
{"id": "C30", "title": "Negative second derivative of mean motion is always rejected", "statement": "A user expects a TLE with a negative second derivative of mean motion to be accepted. It never is (a defect): the otherwise valid set is rejected with CompoundError naming nndot and the text .-DIGITSE-X, by parse_satrec and by twoline2satrec.", "quantifier": "all element sets with a negative non-zero second-derivative mantissa", "why_tests_cant": "all digit strings; sample TLEs have a zero second derivative", "anchors": ["src/io.rs: parse_satrec lines 373-381"]}
{"id": "C31", "title": "Numeric field errors name the first bad field and its columns, but never as a float error", "statement": "Fields are read in a fixed order; decoding fails exactly on the first field that is not a number, with that field's name, column range and offending text, and succeeds exactly when all fields read. A malformed float is however reported as IntParseError (a defect): FloatParseError is never produced by parse_satrec, twoline2satrec, parse or parse_multiple.", "quantifier": "all texts", "why_tests_cant": "all malformed texts; the kind of error cannot be established by samples", "anchors": ["src/io.rs: parse_float, parse_int"]}
{"id": "C32", "title": "Blank lines are irrelevant", "statement": "Inserting or removing blank (whitespace-only) lines anywhere does not change the outcome of parse or parse_multiple.", "quantifier": "all texts, all insertions", "why_tests_cant": "all texts", "anchors": ["src/io.rs: parse, parse_multiple"]}
{"id": "C33", "title": "parse checks line count and line numbers before decoding", "statement": "parse returns InvalidTLEBadLineCount unless there are exactly 2 or 3 non-blank lines, and InvalidTLELineCheckFailed unless the element lines start with 1 and 2, without decoding (and so without panicking) in these cases.", "quantifier": "every text", "why_tests_cant": "all texts", "anchors": ["src/io.rs: parse"]}
{"id": "C34", "title": "Satellite name", "statement": "For a 3-line element set parse returns the element lines' record with name = first line, minus its first two characters when it begins with '0' (defect: the second character is not checked to be a space, so '007 SAT' becomes '7 SAT'); for a 2-line set the name is None. parse_multiple does the same with the name trimmed of surrounding white space.", "quantifier": "all texts, every arithmetic", "why_tests_cant": "all texts", "anchors": ["src/io.rs: parse, parse_multiple"]}
{"id": "C35", "title": "parse_multiple accounts for every line", "statement": "When parse_multiple returns, the non-blank lines are cut into consecutive groups: of 3 lines (name and two element lines, the trimmed name line not being 25 bytes long), of 2 (first line exactly 25 bytes, or end of text) or a lone last line; each group yields exactly one record or one error; the records come back in order, the errors in order and each carries the number of non-blank lines before its group (strictly increasing); records and errors together are as many as groups.", "quantifier": "every text on which it does not panic", "why_tests_cant": "all texts", "anchors": ["src/io.rs: parse_multiple"]}
{"id": "C36", "title": "parse_multiple decodes a catalogue of named sets", "statement": "A text made of any number of 3-line sets whose trimmed names are not exactly 25 bytes long decodes to exactly those records, in order, each independently of its neighbours (an entry that fails to decode yields an error for itself only). A leading name of exactly 25 bytes makes the catalogue fail at its first entry (a defect).", "quantifier": "every number and content of entries", "why_tests_cant": "unbounded catalogues and all names", "anchors": ["src/io.rs: parse_multiple line 240"]}
{"id": "C37", "title": "parse_multiple loses records of a catalogue of unnamed sets", "statement": "A user expects a text of n two-line sets to decode to n records. That holds for n = 1 only (a defect): in every result only the last record can be unnamed, and from 2n lines with n >= 2 fewer than n records are ever produced.", "quantifier": "every number of entries and all texts", "why_tests_cant": "unbounded catalogues", "anchors": ["src/io.rs: parse_multiple line 240"]}
{"id": "C38", "title": "NaN fields are accepted and propagate to NaN without an error", "statement": "A user expects that a TLE accepted by twoline2satrec propagates to numbers or to an error. It does not (a defect): a NaN angle, mean motion or time is never diagnosed, so that every successful propagation of such a record consists of six NaNs; and a set whose mean motion or inclination column spells NaN is accepted and propagates without error at every time.", "quantifier": "all records, times and element-set texts, all libm implementations that map NaN to NaN", "why_tests_cant": "all texts and all times; needs the NaN to be followed through every guard", "anchors": ["src/io.rs: parse_float", "src/propogation/sgp4.rs"]}
{"id": "C39", "title": "ECI/ECF rotations are inverse isometries", "statement": "eci_to_ecf and ecf_to_eci are mutually inverse for every angle, keep z, keep lengths and distances, compose additively in the angle and are 2pi periodic (exact arithmetic).", "quantifier": "all vectors and angles", "why_tests_cant": "continuous inputs", "anchors": ["src/transforms.rs: ecf_to_eci, eci_to_ecf"]}
{"id": "C40", "title": "Geodetic to ECF lands on the reference ellipsoid", "statement": "At height 0 the point satisfies the WGS-84 ellipsoid equation (x^2+y^2)/A^2 + z^2/B^2 = 1; the direction (cos lat cos lon, cos lat sin lon, sin lat) is a unit vector along the outward normal there and height h displaces the point by exactly h along it; every point of the ellipsoid is reached by some latitude in [-pi/2, pi/2] and longitude in (-pi, pi]; every point on or outside it is reached with some height >= 0, and by only one latitude and height (and, off the polar axis, only one longitude).", "quantifier": "all latitudes, longitudes, heights (exact arithmetic)", "why_tests_cant": "continuous inputs", "anchors": ["src/transforms.rs: geodedic_to_ecf"]}
{"id": "C41", "title": "Longitude normalisation of eci_to_geodedic", "statement": "Exact arithmetic: the longitude returned is the direction of (x,y) minus gmst, modulo 2pi, within [-pi, pi]; the latitude lies in [-pi/2, pi/2]; the call returns, after at most |atan2(y,x) - gmst|/2pi turns. Binary64, whatever the math library: a longitude returned is NaN or within [-PI, PI]; the call returns for every finite |gmst| <= 2^49 and never returns (the loop hangs, a defect) for |gmst| >= 2^58 or infinite.", "quantifier": "all positions, all sidereal angles", "why_tests_cant": "loop termination and range for all inputs", "anchors": ["src/transforms.rs: eci_to_geodedic lines 70-78"]}
{"id": "C42", "title": "Geodetic round trip", "statement": "Users expect eci_to_geodedic to invert geodedic_to_ecf followed by ecf_to_eci. It does so for the longitude, at every sidereal angle. Defect: for latitude and height it does so only on the equator; at every other latitude the result differs from the point put in, even in exact arithmetic, because the iteration's c = 1/(1 - e^2 sin^2) lacks the square root of the prime vertical radius. The error is bounded: for every position off the polar axis and not below the ellipsoid the latitude returned is within 2.4e-5 cos(lat)|sin(lat)| radian of the true one, and the height is low by 21.35 sin^2(lat) km, within (0.35 + h/40000) sin^2(lat) km.", "quantifier": "all latitudes strictly between the poles, longitudes strictly inside (-pi, pi), heights >= 0, sidereal angles; for the error bound all positions on or above the ellipsoid and off the axis", "why_tests_cant": "a universally quantified failure: a test shows one bad point, not that every non-equatorial point is wrong", "anchors": ["src/transforms.rs: eci_to_geodedic lines 84-93"]}
{"id": "C43", "title": "Topocentric transform is an isometry", "statement": "The (south, east, up) components are the coordinates of satellite - observer in a right-handed orthonormal basis whose vectors are the directions in which the observer's position moves when latitude decreases, longitude increases and height increases; so their norm is the observer-satellite distance.", "quantifier": "all observers and satellites (exact arithmetic)", "why_tests_cant": "continuous inputs", "anchors": ["src/transforms.rs: topocentric"]}
{"id": "C44", "title": "Look angles reconstruct the topocentric vector", "statement": "For a satellite not at the observer, range > 0 is the distance, elevation lies in [-pi/2, pi/2], azimuth in (0, 2pi], and (range cos el cos az, range cos el sin az, range sin el) = (north, east, up). Unless the satellite is exactly overhead or underfoot, these three numbers are the only ones in those ranges that do so.", "quantifier": "all observers and satellites (exact arithmetic)", "why_tests_cant": "continuous inputs", "anchors": ["src/transforms.rs: topocentric_to_look_angles, ecf_to_look_angles"]}
{"id": "C45", "title": "Latitude/longitude range guards", "statement": "degrees_lat/degrees_long/radians_lat/radians_long convert every number inside the closed range, panic on every number outside it and on both infinities, and pass NaN through as NaN; converting a value accepted by one direction gives a value the other direction accepts. All in binary64.", "quantifier": "every binary64 value", "why_tests_cant": "2^64 values, exact boundary", "anchors": ["src/transforms.rs: degrees_lat, degrees_long, radians_lat, radians_long"]}
{"id": "C46", "title": "Degree/radian conversion round trip", "statement": "degrees_to_radians is x*pi/180, radians_to_degrees is x*180/pi; they are mutually inverse in exact arithmetic, and in binary64 either round trip has relative error at most 2^-51 for magnitudes from 2^-1000 to 2^1000.", "quantifier": "every value", "why_tests_cant": "all values; exactness in binary64 is false, so a bound is needed", "anchors": ["src/transforms.rs: radians_to_degrees, degrees_to_radians"]}
{"id": "C47", "title": "Doppler factor", "statement": "The doppler factor is 1 + |range change over one second|/c: at least 1, at most 1 + |velocity|/c, and invariant under translations and linear isometries. Defect: because of the absolute value it cannot tell approach from recession: moving at the same speed k straight toward or straight away from the observer gives the same 1 + k/c. In binary64 it is never below 1.", "quantifier": "all vectors", "why_tests_cant": "continuous inputs; the claim compares whole families of motions", "anchors": ["src/doppler_factor.rs: doppler_factor"]}
{"id": "C48", "title": "Vector range is a metric", "statement": "Vec3::range is the Euclidean distance: non-negative, zero exactly for equal vectors, symmetric, satisfying the triangle inequality and invariant under adding or subtracting a vector; add and subtract are inverse (exact arithmetic). In binary64 range is never negative.", "quantifier": "all vectors", "why_tests_cant": "continuous inputs", "anchors": ["src/lib.rs: Vec3"]}
{"id": "C49", "title": "Initialisation computes the coefficients of the published theory", "statement": "For orbital elements (positive mean motion before and after recovery, eccentricity in [0,1)), the record sgp4init leaves holds the elements handed in with the mean motion recovered as in Spacetrack Report 3, and its secular rates and drag coefficients (C1, C3, C4, C5, D2-D4, node, perigee and mean-anomaly rates, long-period and inclination constants, polynomial coefficients of the drag terms) are those of the published theory; the perigee-height cases (98, 156, 220 km), the 1e-4 eccentricity cut-off and the 225-minute cut-off are where the theory puts them. Exact arithmetic.", "quantifier": "all orbital element sets, any previous record contents", "why_tests_cant": "continuous inputs; every coefficient is a long formula with several case splits, and test vectors exercise a handful of points", "anchors": ["src/propogation/initl.rs: initl", "src/propogation/sgp4init.rs: sgp4init"]}
{"id": "C50", "title": "A propagated state is the state of the published theory", "statement": "Initialise a record, make any calls on it, then propagate to t. Near the Earth the outcome is decided by the published theory's quantities: eccentricity outside [-0.001,1), negative semi-latus rectum or radius below 1 give the corresponding error, and otherwise the position and velocity returned are exactly those of the theory (long- and short-period periodics included) for the eccentric longitude the limited Newton iteration settles on, which for eccentricity up to 0.77 solves Kepler's equation to 1e-12. In deep space the same holds with simplified drag once the secular change of eccentricity and the periodic change of inclination are given; no other lunar-solar or resonance effect reaches the state (defect). Exact arithmetic; a semi-latus rectum of exactly 0 is not covered.", "quantifier": "all orbital element sets, all times, all call histories", "why_tests_cant": "continuous inputs; end-to-end equality of a 400-line computation with a different presentation of the theory", "anchors": ["src/propogation/sgp4init.rs: sgp4init", "src/propogation/sgp4.rs: sgp4", "src/propogation/initl.rs: initl"]}
{"id": "C51", "title": "Lunar and solar coefficients are Lagrange's equations for the averaged third-body potential", "statement": "In exact arithmetic, after initialising a satellite whose period is 225 minutes or more, the lunar-solar secular rates and periodic coefficients kept in the record are those of perturbation theory: with the Sun and the Moon at any anomalies, the secular rate plus the rate of the periodic terms of each element equals what Lagrange's planetary equations give for the disturbing potential of the two bodies (quadrupole term, averaged over the satellite's orbit). The average itself is shown to be the closed form used. The node's secular rate is kept only between 3 and 177 degrees of inclination, a circular orbit gets no eccentricity terms, the phases of the two bodies at epoch are the linear functions of the epoch of the theory modulo a turn, and nothing is subtracted at epoch.", "quantifier": "all element sets with positive mean motion, eccentricity in [0,1) and period of at least 225 minutes, all epochs, all positions of the Sun and the Moon", "why_tests_cant": "24 trigonometric coefficients, each a polynomial in a dozen direction cosines: a wrong sign in one of them shifts a state by metres per day for some orientations only, and there is no reference value for each coefficient.", "anchors": ["src/propogation/dscom.rs: dscom", "src/propogation/dsinit.rs: dsinit", "src/propogation/sgp4init.rs: sgp4init"]}
{"id": "C52", "title": "Resonant orbits are driven by the published tesseral potential", "statement": "For deep-space mean elements, in exact arithmetic, initialisation classifies the orbit as one-day resonant when its mean motion is strictly between 0.0034906585 and 0.0052359877 rad/min, as half-day resonant when it is in [0.00826, 0.00924] rad/min with eccentricity at least 0.5, and otherwise leaves every resonance coefficient zero. In the resonant classes the coefficients are those of the Earth's tesseral harmonics expanded with Kaula's inclination functions (degree 5, order 2 rounded by less than 2e-6) and the eccentricity functions of Spacetrack Report 3: the acceleration of the mean motion at any resonance angle equals -3 n^2 times the derivative of that potential by mean anomaly. The record holds the resonance angle at epoch (M + w + node - sidereal time, or M + 2 (node - sidereal time)) and its drift, and the integrator called at any time carries angle and mean motion from epoch to that time by 720-minute second-order steps and a shorter last one. One would expect each step to use the full derivative of the acceleration: one-day orbits do; half-day orbits leave out half of the contribution of three terms (4422, 5421, 5433), a defect.", "quantifier": "all mean elements with positive mean motion, eccentricity in [0,1) and period of 225 minutes or more; all times; all intermediate angles", "why_tests_cant": "a fixed coefficient error of a few percent in one of thirteen terms is invisible in short propagations, and no finite sample of angles, inclinations and eccentricities separates the published functions from near misses", "anchors": ["src/propogation/dsinit.rs: dsinit", "src/propogation/dspace.rs: dspace", "src/propogation/sgp4init.rs: sgp4init"]}
{"id": "C53", "title": "Symmetries of propagation", "statement": "In exact arithmetic: (1) two near-earth satellites with the same shape, inclination and drag term, the node of the second d further east and its mean anomaly and perigee possibly given in other turns, have at equal time since epoch states that differ by the rotation by d about the Earth's axis, or fail alike; epoch, name and mode do not matter. (2) In deep space, giving mean anomaly, perigee or node in another turn changes nothing. (3) Without drag near the Earth, advancing the three angles by their secular rates for tau minutes and propagating by t gives the state of the original elements at tau + t. A corrected semi-latus rectum of exactly 0, where the code divides by zero, is excepted.", "quantifier": "all element sets with positive mean motion and eccentricity in [0,1), all rotations, turns and times, any calls made in between", "why_tests_cant": "relations between two runs over a continuum of inputs; sampling pairs cannot exclude a frame error confined to some angles or eccentricities", "anchors": ["src/propogation/sgp4init.rs: sgp4init", "src/propogation/sgp4.rs: sgp4", "src/propogation/dscom.rs: dscom"]}
{"id": "C54", "title": "From the text of an element set to the theory's state at a date", "statement": "In exact arithmetic, for two element lines written in the usual way (standard columns, no leading zeros in the two power mantissas, no negative second derivative) whose elements are orbital: decoding and initialising always returns. Near the Earth the set is refused exactly when the published theory has no state at the epoch, with the corresponding error; otherwise the record returned, asked for any civil date of the calendar's span, returns the theory's answer for the elements written in the text (degrees, revolutions per day, assumed decimal points) at the minutes elapsed between the epoch written in the text and the date. In deep space the same holds given the two lunar-solar effects that reach the state, with at most |minutes|/720 integration steps. A whole text, with or without a name line and with blank lines anywhere, answers like its two element lines.", "quantifier": "all pairs of lines carrying an element set, all dates from 1900 March 1 to 2100 February 28, all names and blank lines", "why_tests_cant": "the composition of decoding, unit conversion, calendar, initialisation and propagation, over all texts and dates", "anchors": ["src/io.rs: parse, twoline2satrec, parse_satrec", "src/propogation/mod.rs: propogate_datetime", "src/propogation/sgp4init.rs: sgp4init", "src/propogation/sgp4.rs: sgp4"]}
{"id": "C55", "title": "Sidereal time is accurate in binary64", "statement": "In binary64, whatever the mathematical library, gstime of a Julian date in the years 1800 to 2199 is within 6e-10 rad of the Greenwich mean sidereal time polynomial at that date, up to whole turns; of a UTC timestamp within 4e-9 rad (the rounding of the Julian date itself); and the sidereal time stored at initialisation is, in each mode of operation, within 4e-9 rad of its formula for epochs from 1899 to 2100.", "quantifier": "all binary64 Julian dates from 2378495 to 2524595, all timestamps and epochs of the span, all libraries", "why_tests_cant": "a cubic with coefficients of a billion seconds per century, reduced modulo a turn: cancellation errors peak at isolated dates", "anchors": ["src/propogation/gstime.rs: gstime", "src/ext.rs: jday", "src/propogation/initl.rs: initl"]}
{"id": "C56", "title": "Frame changes and look angles are accurate in binary64", "statement": "In binary64, with a mathematical library accurate to a few units in the last place: the rotation between the inertial and the Earth-fixed frame is within a micrometre for coordinates up to a million km and any finite angle; geodetic coordinates to Earth-fixed ones within 0.2 micrometres for any finite latitude and longitude and heights up to 100000 km; the south-east-zenith coordinates of a satellite within 100000 km per coordinate within 2 micrometres; the range within 10 micrometres if it is at least 1 km; and, if the horizontal distance d is at least a thousandth of the range, elevation and azimuth (up to whole turns) within 2.5e-8 km / d and 1e-8 km / d radians.", "quantifier": "all finite angles, all coordinates within the bounds, all libraries of that accuracy", "why_tests_cant": "rounding errors peak at isolated inputs; a sampled comparison cannot bound them", "anchors": ["src/transforms.rs: eci_to_ecf, ecf_to_eci, geodedic_to_ecf, topocentric, topocentric_to_look_angles, ecf_to_look_angles"]}
{"id": "C57", "title": "Near-Earth states are accurate in binary64", "statement": "In binary64, with a mathematical library accurate to a few units in the last place: initialise a record from finite elements with mean motion 0.028 to 0.073 rad/min, inclination up to 3 rad, eccentricity up to 0.451, a drag term of size up to 0.001, angles of size up to 7 rad and a perigee either 221 km up or higher (full drag model; the eccentricity not exactly the double nearest to 1e-4) or between 157 and 219 km (short drag model); make any calls on it; propagate it to any time within a day of epoch, or, when the perigee is 400 km up or higher, within three weeks of it. All calls return. Evaluate the published SGP4 theory on the same numbers without rounding. If its eccentricity is below -0.001 by 1e-9 or more the call reports the eccentricity error; otherwise, if it is above by 1e-9 or more, a radius below 1 by 1e-8 or more gives the decay error, and a radius above 1 by 1e-8 or more gives a state within 12 cm and 0.2 mm/s of the theory's position and velocity in every coordinate. The same holds against the theory for any elements the binary64 ones are roundings of (mean motion and angles within 6e-16 of their size, eccentricity and drag term within 1.2e-16; with the full drag model, the eccentricity on the same side of 1e-4). The theory's radius is at most 3.05 Earth radii, and its speed in those states at most 175 km/s.", "quantifier": "all element sets and times in the stated ranges, all histories, all libraries of that accuracy", "why_tests_cant": "some two hundred rounded operations with cancellations, an iteration that may stop one step earlier or later, and branches on rounded numbers: the worst case is not found by sampling", "anchors": ["src/propogation/sgp4init.rs: sgp4init", "src/propogation/initl.rs: initl", "src/propogation/sgp4.rs: sgp4"]}
{"id": "C58", "title": "From text to a state in binary64", "statement": "In binary64, with a mathematical library accurate to a few units in the last place: take a well-written element set (no leading zeros in the power fields, no negative second derivative) with mean motion 6.42 to 16.72 revolutions a day, inclination up to 171 degrees, eccentricity up to 0.45, drag term of size at most 0.000999, angles up to 400 degrees, a day within its year, and a perigee 221 km up or higher or between 157 and 219 km. Decoding it never panics or hangs; it is refused with the error of the state at its epoch if that is an error, and otherwise gives a record. Asking that record for any date within 1439 minutes (30239, three weeks less a minute, when the perigee is 400 km up or higher) of the epoch written in the text returns the published theory's answer for exactly the elements written in the text, at a time within 4e-6 minutes of the one asked for: the theory's decision (with margins of 1e-9 in eccentricity and 1e-8 in radius) and a state within 12 cm and 0.2 mm/s in every coordinate.", "quantifier": "all such texts and dates, all libraries of that accuracy", "why_tests_cant": "joins decimal conversion, unit changes, calendar arithmetic in one rounded Julian date, and the propagation; each step's error is largest at isolated inputs", "anchors": ["src/io.rs: twoline2satrec, parse_satrec", "src/ext.rs: jday", "src/propogation/mod.rs: propogate_datetime", "src/propogation/sgp4init.rs: sgp4init", "src/propogation/sgp4.rs: sgp4"]}
{"id": "C59", "title": "Inverse geodetic transform in binary64 is accurate", "statement": "With sine, cosine, arc tangent and integer powers within a few units in the last place, converting an inertial position to geodetic coordinates in double precision returns, for every position between 6000 and 100000 km from the Earth's centre that is not within a thousandth of its distance from the axis, and for every sidereal angle up to 7 in magnitude: latitude and longitude within 1e-14 rad of those of the same computation without rounding (longitude up to whole turns) and height within 2e-14 R^2/rho km, R the distance to the centre and rho to the axis. Consequently, above the ellipsoid, the longitude is within 1e-14 rad of the true geodetic longitude, the latitude within 2.4e-5 cos|sin| + 1e-14 rad of the true latitude, and the height is the true height minus 21.35 sin^2(latitude) km up to a stated bound.", "quantifier": "all positions in the stated shell off the poles, all finite sidereal angles up to 7, all libraries meeting the accuracy bounds, any iteration budget of at least two", "why_tests_cant": "The latitude loop feeds twenty rounded results back into itself and the height divides by a cosine that may be small; tests can only compare a few points, and cannot tell a rounding effect from the formula's own error.", "anchors": ["src/transforms.rs:eci_to_geodedic"]}
{"id": "C60", "title": "Long-term behaviour: drag-free orbits last for ever, all others end in an error", "statement": "In exact arithmetic. Near the Earth (period under 225 minutes), without drag, and with the perigee at least 50 km up: initialisation succeeds; whatever calls were made before, propagation succeeds at every time however far from the epoch; and the distance from the Earth's centre stays between the perigee and apogee radii give or take 40 km. With drag (drag term times its eccentricity coefficient not zero) there is an explicit time span, computed from the elements, beyond which (in the past as in the future) every propagation reports the eccentricity error. For deep-space orbits the same holds beyond 2/|rate|, rate being the sum of the lunisolar and drag rates of the eccentricity, if that sum is not zero.", "quantifier": "all element sets of each class, all times without bound, all earlier calls", "why_tests_cant": "the claim is about unbounded times in both directions", "anchors": ["src/propogation/sgp4.rs: sgp4", "src/propogation/sgp4init.rs: sgp4init"]}
{"id": "C61", "title": "From text and an observer's coordinates to range and direction in binary64", "statement": "In binary64, with a mathematical library accurate to a few units in the last place: decode a well-written element set of the kind of the property 'From text to a state in binary64', ask the record for a date within 1439 minutes of its epoch (30239 from a perigee of 400 km up), compute the sidereal time of the date, turn the position into the Earth-fixed frame and compute look angles from a site with finite latitude and longitude and a height up to 100000 km. Compare with the exact vector from the site (on the WGS-84 ellipsoid plus height) to the published theory's position for the elements written in the text, turned by the exact IAU-82 sidereal angle of the date (time up to 4e-6 minutes). If that vector is at least 10 km long, the range is within 0.52 m of its length; and unless its horizontal part d is shorter than a nine-hundredth of it, the sine of the elevation is within 1.06 m / length and the cosine and sine of the azimuth are within 1.06 m / d of those of the vector, measured from north over east.", "quantifier": "all such texts, dates and sites, all libraries of that accuracy", "why_tests_cant": "composes decoding, calendar arithmetic, propagation, sidereal time, rotation and look angles; errors add up along six stages and the worst case is not found by sampling", "anchors": ["src/io.rs: twoline2satrec", "src/propogation/mod.rs: propogate_datetime", "src/propogation/gstime.rs: gstime_datetime", "src/transforms.rs: eci_to_ecf, ecf_to_look_angles"]}
{"id": "C62", "title": "Deep-space states are accurate in binary64", "statement": "In binary64, with a mathematical library accurate to a few units in the last place: initialise a record from finite elements of a deep-space orbit (mean motion 0.004 to 0.0279 rad/min, that is a period of 225.2 minutes to 26.2 hours, inclination up to 2.8 rad, eccentricity up to 0.42, a drag term of size up to 0.001, angles of size up to 7 rad, an epoch from 1950 to 2059), resonant or not; make any calls on it; propagate it to any time within thirty days of epoch. Initialisation returns, and so does the propagation when sixty half-day integration steps are allowed. Evaluate the published theory on the same numbers without rounding, with the lunar-solar effects that reach the state taken from an exact initialisation. If its eccentricity is below -0.001 by 1e-9 or more the call reports the eccentricity error; otherwise, if it is above by 1e-9 or more, an eccentricity with lunar-solar periodics below 0 by 1e-9 or more gives the perturbed-eccentricity error, and one above 0 by 1e-9 or more gives a state within 14 cm and 0.06 mm/s of the theory's position and velocity in every coordinate. The same holds against the theory for any elements the binary64 ones are roundings of and any epoch within 1e-9 days. No other error occurs: the theory's radius is between 1.09 and 10.05 Earth radii (and its speed at most 175 km/s).", "quantifier": "all element sets and times in the stated ranges, all histories, all libraries of that accuracy", "why_tests_cant": "hundreds of rounded operations through the third-body geometry, the averaged potential and the periodics, then the iteration and the branches of the propagation: the worst case is not found by sampling", "anchors": ["src/propogation/sgp4init.rs: sgp4init", "src/propogation/initl.rs: initl", "src/propogation/dscom.rs: dscom", "src/propogation/dsinit.rs: dsinit", "src/propogation/dpper.rs: dpper", "src/propogation/sgp4.rs: sgp4"]}
{"id": "C63", "title": "From the text of a deep-space element set to a binary64 state at a date", "statement": "In binary64, with a mathematical library accurate to a few units in the last place: take a well-written element set whose numbers are in the stated ranges (0.92 to 6.39 revolutions a day, inclination up to 160 degrees, eccentricity up to 0.4199, drag term of size up to 0.000999, epoch day within its year). Decoding and initialising it returns, and so does a request for any date within a month of its epoch (sixty half-day integration steps allowed). The answers are the theory's, evaluated without rounding on exactly the elements and the epoch written in the text, at a time that differs from the minutes between epoch and date by at most 4e-6: the theory's decision unless it is within 1e-9 of going the other way, and a state within 14 cm and 0.06 mm/s. The set is refused exactly when the state at the epoch is.", "quantifier": "all texts in the stated ranges, all civil dates of 1900-03-01 to 2100-02-28 within a month of the epoch, all libraries of that accuracy", "why_tests_cant": "the text, the calendar and the propagation each round; agreement for all texts and dates is a bound on the composition, not on samples", "anchors": ["src/io.rs: twoline2satrec", "src/propogation/mod.rs: propogate_datetime", "src/propogation/sgp4init.rs: sgp4init", "src/propogation/sgp4.rs: sgp4"]}
{"id": "C64", "title": "From the text of a deep-space element set and a site to range and direction in binary64", "statement": "In binary64, with an accurate mathematical library: decode a well-written deep-space element set in the ranges of C63, propagate it to a civil date within a month of its epoch, compute the sidereal time of that date, turn the position into the Earth-fixed frame and take look angles from a site. Unless the theory reports an error or is within 1e-9 of doing so, the call returns a state, and the range is within 0.52 m of the distance from the site on the WGS-84 ellipsoid to the theory's position carried by the Earth's rotation; unless the satellite is within about a thousandth of the vertical, the sine of the elevation is within 1.06 m / range, and cosine and sine of the azimuth within 1.06 m / horizontal distance.", "quantifier": "all texts, dates and sites in the stated ranges, all libraries of that accuracy", "why_tests_cant": "a composition of five rounded computations over all texts, dates and sites", "anchors": ["src/io.rs: twoline2satrec", "src/propogation/mod.rs: propogate_datetime", "src/propogation/gstime.rs: gstime_datetime", "src/transforms.rs: eci_to_ecf, ecf_to_look_angles, topocentric, geodedic_to_ecf"]}
{"id": "C65", "title": "From the text of an element set to the satellite's geodetic coordinates in binary64", "statement": "In binary64, with an accurate mathematical library: decode a well-written element set (near-earth in the ranges of C58, or deep-space in those of C63), propagate it to a civil date within a day (three weeks from a perigee of 400 km up; deep-space: a month) of its epoch, and convert the position to geodetic coordinates with the sidereal time of that date. Where the theory gives a position at least 6379 km from the centre and not within 3.8 arc minutes of the Earth's axis, the conversion returns, and some point within 0.51 m of the theory's position, carried by the Earth's rotation (IAU-82), has true WGS-84 coordinates lat, lon, h such that: the returned longitude is lon within 1e-14 up to whole turns, the returned latitude is lat within 24e-6 * cos lat * |sin lat| + 1e-14, and the returned height is h - 21.35 km * sin^2 lat within (0.35 km + h / 40000) * sin^2 lat + 3 mm (the known error of the transform's height formula).", "quantifier": "all texts and dates in the stated ranges, all libraries of that accuracy", "why_tests_cant": "a composition of rounded computations with an iteration, over all texts and dates; the height error depends on latitude and height together", "anchors": ["src/transforms.rs: eci_to_geodedic", "src/io.rs: twoline2satrec", "src/propogation/mod.rs: propogate_datetime", "src/propogation/gstime.rs: gstime_datetime"]}
{"id": "C66", "title": "Ranges and Doppler factors in binary64", "statement": "In binary64, with an accurate mathematical library. The range between two points with coordinates up to a million km, at least 10 m apart, is their distance within a relative 2^-50. The Doppler factor of a site, a position and a velocity (site up to 110000 km, position up to 100000 km, velocity up to 1000 km/s per coordinate; both the present distance r and the distance r' one second later at least 20 m) is 1 + |r' - r| / c within 3e-15. End to end: decode a well-written element set (near-earth in the ranges of C58, or deep-space in those of C63), propagate it to a civil date within a day (three weeks from a perigee of 400 km up; deep-space: a month) of its epoch, turn position and velocity into the Earth-fixed frame with the sidereal time of that date and take the Doppler factor for a site of known coordinates: whenever the theory gives a state (with the margins of C58 and C63) whose distances r and r' from the site, exactly computed, are at least 100 m, the factor is 1 + |r' - r| / c within ((2.05 m / (r + r')) * speed + 4e-9 * speed + 0.4 mm/s) / c + 3e-15. The speed is at most 175 km/s.", "quantifier": "all vectors in the stated ranges; all texts, dates and sites in the stated ranges; all libraries of that accuracy", "why_tests_cant": "the factor differs from 1 by a few parts in 100000, so that a difference of two nearly equal rounded ranges is divided by the speed of light: how many of its digits survive depends on the whole chain of computations", "anchors": ["src/doppler_factor.rs: doppler_factor", "src/lib.rs: Vec3::range", "src/transforms.rs: eci_to_ecf, geodedic_to_ecf", "src/io.rs: twoline2satrec", "src/propogation/mod.rs: propogate_datetime"]}
{"id": "C67", "title": "States of highly eccentric orbits are accurate in binary64", "statement": "In binary64, with a mathematical library accurate to a few units in the last place: initialise a record from finite elements of a highly eccentric deep-space orbit (eccentricity 0.40 to 0.745, perigee at least 200 km up, mean motion 0.004 to 0.0279 rad/min, inclination up to 2.8 rad, a drag term of size up to 0.001, angles of size up to 7 rad, an epoch from 1950 to 2059); make any calls on it; propagate it to any time within thirty days of epoch. Evaluate the published theory on the same numbers without rounding, with the lunar-solar effects that reach the state taken from an exact initialisation. If the radius it computes is below one Earth radius by 2e-8 or more, the call reports decay; if it is above by 2e-8 or more, the call returns a state within 2.6 m and 3.2 mm/s of the theory's position and velocity in every coordinate. No other error occurs. The same holds against the theory for any elements the binary64 ones are roundings of and any epoch within 1e-9 days, and from the text of a well-written element set (0.92 to 6.39 revolutions a day, inclination up to 160 degrees, eccentricity 0.401 to 0.7449) and a civil date within a month of its epoch: decoding, initialising and propagating return, and the answer is the theory's, in that sense, on exactly the written elements at a time that differs from the minutes between epoch and date by at most 4e-6.", "quantifier": "all element sets, texts, dates and times in the stated ranges, all histories, all libraries of that accuracy", "why_tests_cant": "at perigee the motion is fast and Kepler's equation ill-conditioned, so that errors grow by a factor which depends on the place in the orbit: the worst case is not found by sampling", "anchors": ["src/propogation/sgp4init.rs: sgp4init", "src/propogation/initl.rs: initl", "src/propogation/dscom.rs: dscom", "src/propogation/dsinit.rs: dsinit", "src/propogation/dpper.rs: dpper", "src/propogation/sgp4.rs: sgp4", "src/io.rs: twoline2satrec", "src/propogation/mod.rs: propogate_datetime"]}
{"id": "C68", "title": "From the text of a highly eccentric element set to range, direction, coordinates and Doppler factor in binary64", "statement": "In binary64, with an accurate mathematical library: decode a well-written element set in the ranges of C67, propagate it to a civil date within a month of its epoch, and compute the sidereal time of that date. Where the theory's radius is above one Earth radius (by 2e-8 or more) the call returns a state, and: the range from a site at least 100 km away is within 4.91 m of the distance from the site on the WGS-84 ellipsoid to the theory's position carried by the Earth's rotation; unless the satellite is within about a thousandth of the vertical, the sine of the elevation is within 9.84 m / range, and cosine and sine of the azimuth within 9.84 m / horizontal distance; the Doppler factor is 1 + |r' - r| / c within ((19.61 m / (r + r')) * speed + 4e-9 * speed + 5.7 mm/s) / c + 3e-15, r and r' the theory's distances now and one second later (100 m at least); and from 6379 km up and outside 3.8 arc minutes around the Earth's axis the geodetic coordinates are those of C65 for a point within 4.9 m of the theory's position.", "quantifier": "all texts, dates and sites in the stated ranges, all libraries of that accuracy", "why_tests_cant": "a composition of rounded computations over all texts, dates and sites; near perigee the satellite moves fast and is close to the site", "anchors": ["src/io.rs: twoline2satrec", "src/propogation/mod.rs: propogate_datetime", "src/propogation/gstime.rs: gstime_datetime", "src/transforms.rs: eci_to_ecf, ecf_to_look_angles, eci_to_geodedic, geodedic_to_ecf", "src/doppler_factor.rs: doppler_factor"]}
{"id": "C69", "title": "Files and catalogues of element sets are read and propagated accurately in binary64", "statement": "In binary64, with an accurate mathematical library. A text whose non-blank lines are one well-written element set in the ranges of C58, C63 or C67, with or without a name line, is parsed without panic or loop: the set is refused with the error that the theory's state at its epoch is, or the record returned has the name of the name line (none without it) and answers every civil date within the set's horizon (a day, three weeks from a perigee of 400 km up, a month for deep-space and highly eccentric orbits) as C58, C63 and C67 say, at a time that differs from the minutes between epoch and date by at most 4e-6. A catalogue of any number of such sets, each with its name line (not 25 bytes long) and with blank lines anywhere, is parsed to the list of such records, in order and with trimmed names, and the list of such errors with their line numbers; nothing is lost, and one bad set does not disturb its neighbours.", "quantifier": "all texts and catalogues of any length, all dates in the stated ranges, all libraries of that accuracy", "why_tests_cant": "files have any number of entries, and each answer composes parsing, initialisation and propagation in rounded arithmetic", "anchors": ["src/io.rs: parse, parse_multiple, twoline2satrec", "src/propogation/mod.rs: propogate_datetime"]}
{"id": "C70", "title": "A propagated state has the energy and the angular momentum of the orbit", "statement": "Let a and p be the semi-major axis and the semi-latus rectum which the published theory has for the orbit at a time (drag and the theory's long-period terms included), and let p be at least 4701 km. In exact arithmetic, near the Earth and in deep space, after any calls: if propagation to that time returns a state with position r and velocity v (km, km/s), then v^2/2 - mu/|r| is -mu/(2a) within 3.01 J2 (Re/p)^2 of mu/|r| (the vis-viva equation up to the effect of the oblateness), and |r x v| is sqrt(mu p) within 3.5 J2 (Re/p)^2 of it. Hence the speed is at most 11.22 km/s, and below escape velocity unless a exceeds 82 Earth radii. In binary64 with an accurate library, from the text of an element set of the kinds and within the horizons of C58, C63 and C67 to the state for a date: the same with a further 2e-5, whenever the theory's state is not at the edge of an error. For a near-earth set without drag there is no such condition: the set decodes, every date within the horizon has a state, and all these states have the energy of one ellipse, whose axis does not depend on the date.", "quantifier": "all element sets, texts, dates and times in the stated ranges, all histories, all libraries of that accuracy", "why_tests_cant": "a wrong scale or sign in the velocity or in one of the short-period corrections gives plausible vectors at every sampled time; that position and velocity belong together has to hold for every orbit and time", "anchors": ["src/propogation/sgp4.rs: sgp4", "src/propogation/sgp4init.rs: sgp4init", "src/io.rs: twoline2satrec", "src/propogation/mod.rs: propogate_datetime"]}
{"id": "C71", "title": "Platforms with different mathematical libraries agree", "statement": "Two platforms compute in binary64, each with a mathematical library accurate to a few units in the last place, not the same one. Give both the text of a well-written element set in the ranges of C58, C63 or C67. Unless the theory's state at the epoch is within 1e-9 (eccentricities) or 2e-8 (radius) of the other decision, both decode it or both refuse it with the same error. If both decode it, then for every civil date within the set's horizon both return, for one and the same time within 4e-6 minutes of the requested one, and, unless the theory is that close to the other decision at that time, with the same error or with states that differ by at most 24 cm and 0.4 mm/s (near-earth), 28 cm and 0.12 mm/s (deep-space), 5.2 m and 6.4 mm/s (highly eccentric orbits) per coordinate.", "quantifier": "all texts and dates in the stated ranges, all pairs of libraries of that accuracy", "why_tests_cant": "tests run on one platform; which library functions are called where, and how their last digits spread, depends on the whole computation", "anchors": ["src/io.rs: twoline2satrec", "src/propogation/sgp4init.rs: sgp4init", "src/propogation/sgp4.rs: sgp4", "src/propogation/mod.rs: propogate_datetime", "src/ext.rs: jday_datetime, days2mdhms"]}
{"id": "C72", "title": "The sign of the elevation decides whether the Earth is in the way", "statement": "In exact arithmetic: a satellite at or above the horizon (elevation from the look angles zero or more) of a site at height zero or more is in sight, that is no point of the straight segment from the site to the satellite is inside the WGS-84 ellipsoid; a satellite below the horizon (negative elevation) of a site at height zero is not. In binary64 with an accurate library, from the text of an element set of the kinds and within the horizons of C61, C64 and C68 to the look angles for a date: the same for the theory's position, carried by the Earth's rotation, when the sine of the computed elevation is above or below zero by 1.06e-4 (9.84e-5 for highly eccentric orbits), for ranges from 10 km (100 km) and a satellite not within about a thousandth of the vertical.", "quantifier": "all sites and positions; all texts, dates and sites in the stated ranges, all libraries of that accuracy", "why_tests_cant": "geodetic and geocentric verticals differ by up to 11 arc minutes, so a mix-up shows only near the horizon of some sites", "anchors": ["src/transforms.rs: ecf_to_look_angles, topocentric, geodedic_to_ecf, eci_to_ecf", "src/propogation/gstime.rs: gstime_datetime", "src/propogation/mod.rs: propogate_datetime", "src/io.rs: twoline2satrec"]}
{"id": "C73", "title": "No integer overflow and no index out of range", "statement": "The integer arithmetic of the crate never leaves its machine types and its indexing never leaves its arrays, so debug and release builds agree. For every year and every value of the day field (NaN and infinities included) the conversion of a day of the year to month, day and time performs no u64 operation out of range and no table access out of bounds. For every two lines, the year arithmetic of decoding stays in i64. For every text that fits into memory (at most isize::MAX bytes), the catalogue parser's line index stays in usize and every line access is in bounds. In each case the computation with machine integers and indices gives exactly the result which the other properties of this list are about.", "quantifier": "all years, day values, lines and texts, in exact arithmetic and in binary64 with any library", "why_tests_cant": "an overflow shows only for the extreme input, and only in one of the two build modes", "anchors": ["src/ext.rs: days2mdhms", "src/io.rs: parse_satrec, twoline2satrec, parse_multiple"]}
{"id": "C74", "title": "A satellite stands in the zenith of the coordinates returned for it", "statement": "Convert a satellite's inertial position to geodetic coordinates, put an observer on the ground at the latitude and longitude returned, and look at the satellite from there. In exact arithmetic, for every position at a geodetic height h of 1 km or more, off the polar axis and the date line, and every sidereal angle: the satellite is above the horizon and in sight; it is h above the observer's horizontal plane within 2 m + 1e-9 h, and at most 1.2e-5 (6461 km + h) off the vertical, so that the zenith angle has a sine of at most 1.3e-5 (6461 km / h + 1), 0.013 degrees at 400 km; this is so although latitude and height are inexact off the equator (C42). In binary64 with an accurate library, from the text of a near-earth or deep-space element set and a date as in C65: the same for the theory's position, carried by the Earth's rotation, seen from the coordinates returned, with 1.3e-5 instead of 1.2e-5 and a further 1.02 m (horizontal) and 0.51 m (vertical).", "quantifier": "all positions and sidereal angles; all texts and dates in the stated ranges, all libraries of that accuracy", "why_tests_cant": "two independent transformations have to agree with each other everywhere on the globe and at every height", "anchors": ["src/transforms.rs: eci_to_geodedic, eci_to_ecf, geodedic_to_ecf, ecf_to_look_angles", "src/propogation/mod.rs: propogate_datetime", "src/propogation/gstime.rs: gstime_datetime", "src/io.rs: twoline2satrec"]}
