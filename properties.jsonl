{"id": "C01", "title": "Satellite numbers and constellation/PRN pairs are in bijection", "statement": "prn2sat followed by sat2prn returns the original constellation and PRN for every PRN the constellation owns, every satellite number 1..MAXSAT is produced by exactly one such pair, and sat2prn followed by prn2sat is the identity on 1..MAXSAT.", "quantifier": "every constellation, every PRN in its range, every satellite number 1..233", "why_tests_cant": "A collision between two constellations shows only for the particular pair of satellites concerned; every dictionary of corrections is keyed by this number, so one collision silently applies one satellite's correction to another.", "anchors": ["src/cssrlib/gnss.py: prn2sat, sat2prn, uGNSS"]}
{"id": "C02", "title": "Satellite identifier strings name exactly one satellite", "statement": "For every satellite number 1..MAXSAT, id2sat(sat2id(s)) = s, so two different satellites never share an identifier string and identifiers written to a file read back as the same satellite.", "quantifier": "every satellite number 1..233", "why_tests_cant": "Identifiers use different PRN offsets per constellation (QZSS 193, SBAS 120); test files contain only a few of the 233 satellites.", "anchors": ["src/cssrlib/gnss.py: sat2id, id2sat, char2sys, sys2char"]}
{"id": "C03", "title": "A PRN outside its constellation's range is never taken for another satellite", "statement": "prn2sat applied to a PRN that the constellation does not own never returns the number of a satellite of a different constellation; and sat2prn of a number outside 1..MAXSAT does not name a real satellite.", "quantifier": "every integer PRN and every integer satellite number", "why_tests_cant": "Receivers and correction streams contain unassigned PRNs only rarely; tests use valid ones.", "anchors": ["src/cssrlib/gnss.py: prn2sat, sat2prn"]}
{"id": "C04", "title": "Calendar dates survive conversion to internal time and back", "statement": "For every valid calendar date and time of day from 1970 to 2099, time2epoch(epoch2time(date)) gives back the same year, month, day, hour, minute and second, and the internal second count equals 86400 times the true number of days since 1970-01-01 plus the time of day.", "quantifier": "every date 1970-01-01..2099-12-31, every second of day, every fractional second", "why_tests_cant": "There are 47482 days; leap-day handling errors appear only near month and year ends.", "anchors": ["src/cssrlib/gnss.py: epoch2time, time2epoch"]}
{"id": "C05", "title": "Invalid calendar dates are rejected and never alias a valid time", "statement": "epoch2time returns the zero time for a year outside 1970..2099 or a month outside 1..12, and for any other input the result is the day-count arithmetic value (day overflow rolls to the following days).", "quantifier": "every integer year, month and day", "why_tests_cant": "Out-of-range inputs are unbounded.", "anchors": ["src/cssrlib/gnss.py: epoch2time"]}
{"id": "C06", "title": "Week number and time of week round-trip for GPS, Galileo and BeiDou time", "statement": "time2gpst(gpst2time(w, t)) = (w, t) for every week w >= 0 and every time of week 0 <= t < 604800 with fractional part, and the same for GST and BDT; distinct (week, tow) pairs give distinct times; the three time scales differ by exactly their epoch offsets.", "quantifier": "every non-negative week, every time of week in [0, 604800)", "why_tests_cant": "Unbounded number of weeks; boundary effects only at week starts.", "anchors": ["src/cssrlib/gnss.py: gpst2time, time2gpst, gst2time, time2gst, bdt2time, time2bdt"]}
{"id": "C07", "title": "Adding and subtracting seconds is exact and normalised", "statement": "timeadd always yields a time whose fraction lies in [0,1); timediff(timeadd(t, s), t) = s; timeadd(timeadd(t, a), b) equals timeadd(t, a+b); timediff is antisymmetric and additive.", "quantifier": "every time and every (rational) number of seconds, positive or negative", "why_tests_cant": "Normalisation errors occur only for negative increments and values on a second boundary.", "anchors": ["src/cssrlib/gnss.py: timeadd, timediff"]}
{"id": "C08", "title": "Leap-second conversion between GPS time and UTC is invertible", "statement": "utc2gpst(gpst2utc(t)) = t for every GPS time t except inside an inserted leap second; gpst2utc(utc2gpst(t)) = t for every UTC time; utc2gpst is strictly monotone, gpst2utc is strictly monotone on times outside inserted leap seconds, and the offset utc2gpst applies is the number of leap seconds introduced up to that instant.", "quantifier": "every time, with any fraction of a second", "why_tests_cant": "Errors arise only within seconds of one of the 18 leap-second insertions.", "anchors": ["src/cssrlib/gnss.py: gpst2utc, utc2gpst, rCST leaps table"]}
{"id": "C09", "title": "Ambiguous times are resolved to the nearest candidate", "statement": "adjtime, tod2tow, glo2time, adjust_time_week and the RINEX day adjustment return the unique time congruent to the transmitted value (modulo a day or a week) that lies within half a day (half a week) of the reference time.", "quantifier": "every reference time and every transmitted value within the field's range", "why_tests_cant": "Wrong resolution happens only when reference and value straddle midnight or a week change.", "anchors": ["src/cssrlib/gnss.py: adjtime, tod2tow, glo2time", "src/cssrlib/cssr_pvs.py: adjust_time_week", "src/cssrlib/rinex.py: adjday"]}
{"id": "C10", "title": "RINEX observation codes survive parsing and printing", "statement": "For every constellation, observation type and signal accepted by rSigRnx from a RINEX string, printing the signal gives the same string; parsing a printed signal gives the same signal.", "quantifier": "every three- and four-character code", "why_tests_cant": "There are thousands of code combinations; only a dozen appear in test data.", "anchors": ["src/cssrlib/gnss.py: rSigRnx.str2sig, rSigRnx.str, rSigRnx.toTyp, rSigRnx.toAtt"]}
{"id": "C11", "title": "Only observation codes defined for a constellation are accepted", "statement": "rSigRnx raises ValueError for every band/attribute pair that RINEX 3/4 does not define for the given constellation.", "quantifier": "every constellation, band digit and attribute letter", "why_tests_cant": "Tests only supply valid codes.", "anchors": ["src/cssrlib/gnss.py: rSigRnx.str2sig"]}
{"id": "C12", "title": "Every accepted signal has a carrier frequency and wavelengths are consistent", "statement": "For every signal accepted for a constellation, frequency() returns a positive carrier frequency (GLONASS: for every channel), equal for signals of the same band.", "quantifier": "every constellation, every accepted band", "why_tests_cant": "Rare bands are absent from test data; a missing frequency breaks carrier-phase processing only when the band is used.", "anchors": ["src/cssrlib/gnss.py: rSigRnx.frequency, rSigRnx.wavelength"]}
{"id": "C13", "title": "Correction-stream signal indices name distinct signals", "statement": "In each correction service the mapping from transmitted signal index to RINEX signal is injective per constellation, so the bias of one signal is never stored under another signal's name.", "quantifier": "every service (compact SSR, BDS B2b, RTCM SSR), constellation and signal index", "why_tests_cant": "A collision shows only when both signals are transmitted for one satellite.", "anchors": ["src/cssrlib/cssrlib.py: cssr.ssig2rsig", "src/cssrlib/cssr_bds.py: ssig2rsig", "src/cssrlib/rtcm.py: rtcm.ssig2rsig, rtcmUtil.rsig2code, rtcmUtil.msm2rsig"]}
{"id": "C14", "title": "Copying a bit range moves exactly those bits", "statement": "copy_buff(src, dst, ofst_d, ofst_s, blen) makes the blen destination bits starting at ofst_d equal to the source bits starting at ofst_s and leaves every other destination bit, and the length of the destination, unchanged; it fails without effect beyond buffer ends only when the ranges do not fit.", "quantifier": "every pair of buffers, every offset and length", "why_tests_cant": "Chunking by 32 bits plus a remainder misbehaves only for particular lengths and offsets.", "anchors": ["src/cssrlib/gnss.py: copy_buff"]}
{"id": "C15", "title": "Mask decoding lists exactly the set bits in order", "statement": "decode_mask returns in strictly increasing order the positions of the bits set in the mask, its count equals the number of set bits, and encode_mask is its inverse in both directions.", "quantifier": "every mask width, every mask value, every offset", "why_tests_cant": "2^64 satellite masks.", "anchors": ["src/cssrlib/cssrlib.py: cssr.decode_mask, cssre.encode_mask"]}
{"id": "C16", "title": "Reserved 'not available' codes and only those decode to NaN", "statement": "In each service the signed-field decoder returns NaN exactly for the reserved bit patterns of that service and otherwise the two's complement value times the scale; two different valid patterns never decode to the same value.", "quantifier": "every field width >= 2 and every bit pattern", "why_tests_cant": "One pattern out of 2^n per field.", "anchors": ["src/cssrlib/cssrlib.py: cssr.sval", "src/cssrlib/cssr_has.py: sval", "src/cssrlib/cssr_bds.py: sval", "src/cssrlib/dgps.py: sval", "src/cssrlib/sbas.py: sval"]}
{"id": "C17", "title": "Quality indicators are monotone and invertible", "statement": "A higher class or a higher value inside a class never decodes to a smaller URA, and encoding a decoded URA gives back the same class and value.", "quantifier": "all 64 class/value pairs", "why_tests_cant": "Only a few indicators occur in the test recordings.", "anchors": ["src/cssrlib/cssrlib.py: cssr.quality_idx, cssre.quality2qi"]}
{"id": "C18", "title": "A compact-SSR mask message is decoded to exactly the transmitted satellites and signals", "statement": "For every list of constellations with satellite mask, signal mask and optional cell mask, decoding the bits laid out according to the interface specification yields exactly those satellites in that order, exactly the enabled signals per satellite, and consumes exactly the bits of the message.", "quantifier": "every number of constellations, every mask content, every buffer position and any trailing bits", "why_tests_cant": "The layout depends on data decoded earlier in the message; the number of combinations is astronomically large.", "anchors": ["src/cssrlib/cssrlib.py: cssr.decode_cssr_mask"]}
{"id": "C19", "title": "Each correction is attributed to the satellite that transmitted it", "statement": "After decoding an orbit, clock, code-bias, phase-bias, URA, combined, slant-delay, gridded or atmospheric message, the stored value of every satellite in the current mask (and grid point) is the field transmitted at that satellite's position, and the decoder position advances by exactly the length the interface specification prescribes, so the following message starts at the right bit.", "quantifier": "every mask, every satellite count, every field content, any trailing bits", "why_tests_cant": "Desynchronisation needs particular combinations of masks, absent satellites and IODE widths.", "anchors": ["src/cssrlib/cssrlib.py: decode_cssr_orb, decode_cssr_clk, decode_cssr_cbias, decode_cssr_pbias, decode_cssr_ura, decode_cssr_comb"]}
{"id": "C20", "title": "The compact-SSR message loop terminates and never reads past a message it does not understand", "statement": "decode_cssr returns for every buffer content after finitely many steps, stops at the first word whose message type is not 4073, and each iteration strictly advances.", "quantifier": "every buffer content and length", "why_tests_cant": "Malformed and truncated streams are unbounded.", "anchors": ["src/cssrlib/cssrlib.py: decode_cssr"]}
{"id": "C21", "title": "L6 frames are assembled only from consecutive parts of one facility", "statement": "Over any history of received L6 messages, whenever decode_l6msg reports assembled data of k parts, the buffer holds the concatenation, in order, of the 1695-bit data parts of the last k accepted messages, all from the same facility and starting with a subframe-start message; a facility change or missing start discards the partial frame.", "quantifier": "every sequence of received 250-byte messages", "why_tests_cant": "Failures depend on the interleaving of message losses, facility changes and frame starts.", "anchors": ["src/cssrlib/cssrlib.py: cssr.decode_l6msg", "src/cssrlib/gnss.py: copy_buff"]}
{"id": "C22", "title": "Expired corrections are never used", "statement": "After check_validity(t) no clock or orbit correction older than its maximum age remains usable: its value is zeroed and its IODE invalidated, while corrections within the age limit are left untouched.", "quantifier": "every time and every set of stored corrections", "why_tests_cant": "Expiry depends on unbounded time histories.", "anchors": ["src/cssrlib/cssrlib.py: cssr.check_validity", "src/cssrlib/cssr_pvs.py: check_validity", "src/cssrlib/sbas.py: check_validity"]}
{"id": "C23", "title": "The correction status only reports complete when all parts have been received", "statement": "chk_stat returns true exactly when every mandatory global correction (mask, orbit, clock, code bias) has been received and, if a local network is selected, its STEC/troposphere parts too; status bits once set stay set until reset.", "quantifier": "every history of decoded messages", "why_tests_cant": "Depends on message order and loss.", "anchors": ["src/cssrlib/cssrlib.py: cssr.chk_stat, decode_cssr"]}
{"id": "C24", "title": "A Galileo HAS message is delivered only when enough distinct pages of it are present", "statement": "Over any sequence of received C/NAV pages, decode_cnav delivers a message only when the number of distinct page identifiers collected for the current message identifier reaches the message size, all collected pages belong to that identifier, and a message identifier already delivered is not delivered again while it is among the last ten.", "quantifier": "every sequence of received pages", "why_tests_cant": "Pages arrive interleaved from many satellites with losses and duplicates.", "anchors": ["src/cssrlib/cssr_has.py: cnav_msg.decode_cnav"]}
{"id": "C25", "title": "Any k distinct HAS pages recover the message", "statement": "If each received page is the generator-matrix encoding of the k message pages and the k selected generator rows are invertible, the erasure decoder returns exactly the original message pages.", "quantifier": "every message, every choice of k distinct pages, every field", "why_tests_cant": "The number of page subsets (255 choose k) cannot be enumerated.", "anchors": ["src/cssrlib/cssr_has.py: cnav_msg.decode_has_page"]}
{"id": "C26", "title": "The broadcast ephemeris closest in time is selected", "statement": "findeph returns an ephemeris of the requested satellite and mode whose reference time is within the constellation's maximum age and closest to the requested time among all candidates; with an IODE given, it returns only an ephemeris with that IODE; it returns none only if no candidate qualifies.", "quantifier": "every list of ephemerides, satellite, time and IODE", "why_tests_cant": "Depends on the contents and order of an arbitrary list.", "anchors": ["src/cssrlib/ephemeris.py: findeph, findalm"]}
{"id": "C27", "title": "Corrections are applied only together with the matching ephemeris", "statement": "In SSR mode satposs uses a satellite only when orbit and clock corrections exist for it, the IODE of the correction selects the ephemeris used, and neither correction is NaN; and evaluating satellite positions does not change the stored corrections.", "quantifier": "every set of ephemerides, corrections and observed satellites", "why_tests_cant": "Combinations of partially received corrections.", "anchors": ["src/cssrlib/ephemeris.py: satposs"]}
{"id": "C28", "title": "Precise-orbit interpolation stays inside the table and brackets the epoch", "statement": "For every table of at least 11 increasing epochs and every requested time within the allowed extrapolation, the binary search returns the interval containing the time and the 11-point interpolation window lies inside the table; otherwise no position is returned.", "quantifier": "every table length, epoch spacing and requested time", "why_tests_cant": "Index errors appear only at the edges of particular tables.", "anchors": ["src/cssrlib/peph.py: peph.pephpos, peph.pephclk"]}
{"id": "C29", "title": "Orbit interpolation reproduces every polynomial exactly", "statement": "interppol returns the value at zero of the unique polynomial of degree < n through the n given points; hence any orbit that is polynomial of degree at most n-1 is reproduced exactly (in exact arithmetic).", "quantifier": "every n >= 1, every set of distinct abscissae, every polynomial of degree < n", "why_tests_cant": "Infinite families of polynomials.", "anchors": ["src/cssrlib/peph.py: peph.interppol"]}
{"id": "C30", "title": "Filter state indices never collide", "statement": "In the PPP engine the indices of position/velocity, troposphere, ionosphere and carrier-phase ambiguity states are pairwise distinct for distinct (satellite, frequency) and all lie within the state vector.", "quantifier": "every satellite number, every frequency, every configuration of estimated parameters", "why_tests_cant": "A collision corrupts only specific pairs of states under specific configurations.", "anchors": ["src/cssrlib/pppssr.py: pppos.__init__, IB, II, IT"]}
{"id": "C31", "title": "The double-difference covariance is symmetric and block structured", "statement": "ddcov returns a symmetric matrix whose (i,j) entry is the reference variance plus, on the diagonal, the satellite variance inside one constellation/frequency block and zero between blocks.", "quantifier": "every number of blocks and block sizes, every variance list", "why_tests_cant": "Block boundaries depend on the observed satellites.", "anchors": ["src/cssrlib/pppssr.py: pppos.ddcov"]}
{"id": "C32", "title": "Carrier smoothing is a convex combination with bounded memory", "statement": "The smoothed pseudorange lies between the measured pseudorange and the carrier-propagated previous one, its weight is never below 1/ns, and a data gap, missing observation or large jump restarts the filter at the measured value.", "quantifier": "every sequence of observations", "why_tests_cant": "Filter memory makes the output depend on the whole history.", "anchors": ["src/cssrlib/pntpos.py: stdpos.csmooth"]}
{"id": "C33", "title": "RTCM frames written by the encoder pass the decoder's check and corrupted ones do not", "statement": "A frame completed with set_sync, set_len, set_checksum satisfies sync and checksum, for every body; and changing any single bit or any burst of up to 24 bits of an accepted frame makes checksum fail.", "quantifier": "every frame body of every length, every error position", "why_tests_cant": "Exponentially many bodies and error patterns.", "anchors": ["src/cssrlib/rtcm.py: rtcm.sync, rtcm.checksum, rtcme.set_sync, rtcme.set_len, rtcme.set_checksum"]}
{"id": "C34", "title": "RTCM SSR orbit, clock and URA corrections survive encoding and decoding", "statement": "Encoding the corrections of a constellation and decoding the resulting message returns the same satellites in the same order and the same quantised values, including 'not available', for every constellation.", "quantifier": "every set of up to 63 satellites, every in-range correction value", "why_tests_cant": "Sizes, constellations and values unbounded.", "anchors": ["src/cssrlib/rtcm.py: encode_head, encode_sat, encode_orb_sat, encode_clk_sat, decode_head, decode_sat, decode_orb_sat, decode_clk_sat"]}
{"id": "C35", "title": "RTCM message numbers are classified consistently", "statement": "Every message number handled by decode as MSM or SSR is classified with the same constellation by the helper tables, and no number is claimed by two constellations.", "quantifier": "every message number 0..4095", "why_tests_cant": "Rarely used constellations are not in the recordings.", "anchors": ["src/cssrlib/rtcm.py: rtcmUtil.is_msmtype, msmtype, is_ssrtype, ssrtype, get_ssr_sys, mt2sct, sct2mt"]}
{"id": "C36", "title": "MSM satellite, signal and cell masks assign each observation to its satellite and signal", "statement": "For every satellite mask, signal mask and cell mask with at most 64 cells, the decoder reads exactly one set of fields per set cell bit, in satellite-major order, and stores it at that satellite's row and that signal's column.", "quantifier": "every mask content", "why_tests_cant": "2^64 combinations.", "anchors": ["src/cssrlib/rtcm.py: rtcm.decode_msm"]}
{"id": "C37", "title": "A loss of lock is reported as a cycle slip", "statement": "When an MSM lock-time indicator of a signal decreases between two epochs, the observation's loss-of-lock flag is set.", "quantifier": "every pair of consecutive epochs", "why_tests_cant": "Depends on history.", "anchors": ["src/cssrlib/rtcm.py: rtcm.decode_msm"]}
{"id": "C38", "title": "OSNMA data is reported authenticated only after root key, key chain and tag verification", "statement": "Over any history of received pages, navigation data of a satellite becomes marked authenticated only if the root key was verified, the TESLA key was verified against it and the tag matched the data received in an earlier subframe.", "quantifier": "every history of received pages", "why_tests_cant": "Depends on the order of events across many subframes and on adversarial inputs.", "anchors": ["src/cssrlib/osnma.py: osnma.decode, verify_key_chain, verify_navmsg, chk_nav"]}
{"id": "C39", "title": "A Digital Signature Message is used only when all its blocks are present", "statement": "decode_hk reports a complete DSM exactly when every block 0..nb-1 of the announced DSM has been received since the last change of DSM identifier, whatever the order and repetition, and the assembled message is the concatenation of the blocks.", "quantifier": "every sequence of received blocks", "why_tests_cant": "Blocks arrive in arbitrary order from several satellites.", "anchors": ["src/cssrlib/osnma.py: osnma.decode_hk"]}
{"id": "C40", "title": "Broadcast ephemerides are emitted only from subframes of one issue", "statement": "decode_gal_inav and decode_gps_lnav return an ephemeris only if all required words or subframes have been received and their issue-of-data fields agree, whatever the order of reception.", "quantifier": "every sequence of received pages/subframes", "why_tests_cant": "Change of issue in the middle of reception is rare in recordings.", "anchors": ["src/cssrlib/rawnav.py: rcvDec.decode_gal_inav, decode_gps_lnav"]}
{"id": "C41", "title": "GPS LNAV ephemeris fields are decoded over their full range", "statement": "Every field of subframes 1-3 decodes to the integer that the interface specification defines (signedness, concatenation of split fields), for every bit content.", "quantifier": "every subframe content", "why_tests_cant": "Sign errors show only for values with the top bit set.", "anchors": ["src/cssrlib/rawnav.py: decode_gps_lnav, getbitu2, getbits2"]}
{"id": "C42", "title": "Integer least-squares decorrelation preserves the problem", "statement": "The reduction step returns an integer transformation of determinant +-1 and a factorisation L, d with L'DL of the transformed covariance, so no integer candidate is lost.", "quantifier": "every dimension, every positive-definite factorisation", "why_tests_cant": "Dimension and values unbounded.", "anchors": ["src/cssrlib/mlambda.py: ldldecom, reduction"]}
{"id": "C43", "title": "SBAS ionosphere interpolation weights are a partition of unity", "statement": "For every point inside a cell of the SBAS ionospheric grid the interpolation weights are non-negative and sum to one, and the interpolated delay lies between the smallest and largest surrounding grid delay.", "quantifier": "every user position, every grid", "why_tests_cant": "Continuum of positions.", "anchors": ["src/cssrlib/sbas.py: searchIGP, ionoSBAS"]}
{"id": "C44", "title": "SBAS and BDS corrections are stored only under the issue of data of the current mask", "statement": "Fast, long-term and B2b corrections whose issue of mask differs from the current one are ignored; those that match are attributed to the satellite at that mask position.", "quantifier": "every history of masks and corrections", "why_tests_cant": "Mask changes are rare.", "anchors": ["src/cssrlib/sbas.py: decode_sbas_fast_corr, decode_sbas_lcorr_half", "src/cssrlib/cssr_bds.py: decode_cssr_mask, decode_cssr_comb1"]}
{"id": "C45", "title": "MADOCA ionosphere areas have distinct network indices", "statement": "get_inet maps distinct (region, area) pairs to distinct network indices inside the table of local corrections.", "quantifier": "every region and area number the message can carry", "why_tests_cant": "Most areas are not transmitted in the recordings.", "anchors": ["src/cssrlib/cssr_mdc.py: get_inet"]}
{"id": "C46", "title": "RINEX observation headers are read completely", "statement": "For every constellation and every number of observation types, the header reader consumes all continuation lines so that all announced observation types are registered in order.", "quantifier": "every number of observation types", "why_tests_cant": "Only a few lengths occur in test files.", "anchors": ["src/cssrlib/rinex.py: rnxdec.decode_obsh"]}
{"id": "C47", "title": "A combined update keeps the filter covariance symmetric and never increases it", "statement": "The Kalman update used by the PPP engine returns a symmetric covariance for every symmetric input covariance and measurement covariance, equal to the Joseph form, for every dimension.", "quantifier": "every dimension and every matrix", "why_tests_cant": "Continuum of matrices.", "anchors": ["src/cssrlib/pppssr.py: pppos.kfupdate", "src/cssrlib/gnss.py: kfupdate"]}
{"id": "C48", "title": "GLONASS epochs in RTCM messages are converted to GPS time once", "statement": "The GPS time assigned to a GLONASS SSR or network message with Moscow time of day tod is the GPS time of the instant whose Moscow time of day is tod, closest to the previous time.", "quantifier": "every previous time, every time of day", "why_tests_cant": "A constant error of the accumulated leap seconds stays inside every validity window used in tests.", "anchors": ["src/cssrlib/rtcm.py: decode_head, decode_nrtk_time, decode_time", "src/cssrlib/gnss.py: glo2time, utc2gpst"]}
{"id": "C49", "title": "Day-of-year and GLONASS four-year-interval dates denote the right calendar day", "statement": "gep2time(N4, Nt, sod), the bias-file doy2time(year, doy, sec) and time2doy agree with the Gregorian calendar: day Nt of the N4-th four-year interval since 1996, and day doy of the year.", "quantifier": "every interval 1..26, every day number, every second; every year 1970..2099", "why_tests_cant": "Errors would appear only around leap days.", "anchors": ["src/cssrlib/rawnav.py: gep2time", "src/cssrlib/peph.py: biasdec.doy2time", "src/cssrlib/gnss.py: time2doy"]}
{"id": "C50", "title": "The truncated GPS week of a broadcast ephemeris is resolved to the week nearest the current time", "statement": "For a 10-bit week number, adjustweek returns the week congruent to it modulo 1024 that is nearest to the reference time.", "quantifier": "every 10-bit week and every reference time", "why_tests_cant": "A wrong choice appears only near the 1024-week rollover (2019, 2038).", "anchors": ["src/cssrlib/rtcm.py: rtcmUtil.adjustweek"]}
{"id": "C51", "title": "Ephemeris age is reduced to within half a week", "statement": "dtadjust returns the time difference reduced by a week so that, for times less than one and a half weeks apart, the result lies within half a week.", "quantifier": "every pair of times", "why_tests_cant": "Only shows for ages between half a week and one week.", "anchors": ["src/cssrlib/ephemeris.py: dtadjust"]}
{"id": "C52", "title": "Signals named by a correction service are usable as RINEX signals", "statement": "Every signal that a correction decoder can name prints to an observation code that the RINEX signal parser accepts and maps back to the same signal.", "quantifier": "every service table, constellation and index", "why_tests_cant": "Rare signals never occur in test data.", "anchors": ["src/cssrlib/cssrlib.py: cssr.ssig2rsig", "src/cssrlib/rtcm.py: rtcm.ssig2rsig", "src/cssrlib/gnss.py: rSigRnx"]}
{"id": "C53", "title": "Satellite states do not depend on the other satellites of the epoch", "statement": "The ephemeris, corrections and group delay that satposs uses for one satellite do not depend on which other satellites are observed in the same epoch.", "quantifier": "every observation list, navigation data and correction state", "why_tests_cant": "A leak from the previous loop iteration only shows for particular satellite orders and processing modes.", "anchors": ["src/cssrlib/ephemeris.py: satposs"]}
{"id": "C54", "title": "Missing precise positions are not used and evaluation inside coverage does not fail", "statement": "A satellite position that the SP3 product marks as missing never enters an interpolation, and peph2pos returns a result or reports none for every time within the allowed extrapolation.", "quantifier": "every table of epochs and every requested time", "why_tests_cant": "Needs a file with a gap in the middle of a window and a request in the last millisecond of the allowed extrapolation.", "anchors": ["src/cssrlib/peph.py: peph.pephpos", "src/cssrlib/peph.py: peph.peph2pos", "src/cssrlib/peph.py: peph.write_sp3"]}
{"id": "C55", "title": "Fixed ambiguities are restored consistently from integer pairs", "statement": "ddidx pairs, per constellation and frequency, the lowest-numbered fixable satellite with every other fixable one, each once; restamb returns a state whose ambiguity differences over these pairs are exactly the given integers, leaves every other ambiguity unchanged and takes the remaining states from nav.xa; holdamb constrains exactly these pairs.", "quantifier": "every float state, satellite list, elevation, validity flag, number of frequencies and integer vector", "why_tests_cant": "A mismatch between the order of pairs in ddidx and restamb shows only with several constellations, frequencies and satellites below the mask at once.", "anchors": ["src/cssrlib/pppssr.py: pppos.ddidx", "src/cssrlib/pppssr.py: pppos.restamb", "src/cssrlib/pppssr.py: pppos.holdamb"]}
{"id": "C56", "title": "Configured initial variances and process noise reach the states they are configured for", "statement": "After construction the covariance diagonal and nav.q hold sig_p0/sig_qp for position, sig_v0/sig_qv for velocity, sig_ztd0/sig_qztd for the zenith delay, sig_qion for every satellite's slant delay and sig_qb for every ambiguity.", "quantifier": "every combination of positioning mode, troposphere and ionosphere option and number of frequencies", "why_tests_cant": "A noise value written one slot off changes convergence slightly, no test compares it.", "anchors": ["src/cssrlib/pppssr.py: pppos.__init__", "src/cssrlib/pppssr.py: pppos.udstate"]}
{"id": "C57", "title": "Filter residuals and design matrix describe the same measurement model", "statement": "For every satellite pair and signal, the row of H that sdres returns is the derivative of the predicted single difference it subtracts, so that v(x+d) = v(x) - H d for the zenith delay, slant delay and ambiguity states.", "quantifier": "every state, state change, satellite pair and wavelength", "why_tests_cant": "A sign or wavelength mismatch in one block lets the filter converge slowly to a wrong value instead of failing.", "anchors": ["src/cssrlib/pppssr.py: pppos.sdres"]}
{"id": "C58", "title": "Constructor options take effect, and only for the object they are given to", "statement": "An option passed to pppos, ppprtkpos or rtkpos is the option the object uses; options not passed come from the given configuration, or from the library default, which is the same for every object.", "quantifier": "every option value, configuration and sequence of constructions", "why_tests_cant": "Single-object scripts never see a default changed by an earlier object, and option value 0 is not exercised.", "anchors": ["src/cssrlib/pppssr.py: pppos.__init__", "src/cssrlib/ppprtk.py: ppprtkpos.__init__", "src/cssrlib/rtk.py: rtkpos.__init__", "src/cssrlib/gnss.py: default_config"]}
{"id": "C59", "title": "The filter's time update and state initialisation keep the covariance symmetric and non-negative", "statement": "udstate's propagation P -> Phi P Phi^T + q dt and initx keep a symmetric positive semidefinite covariance symmetric and positive semidefinite; initx decorrelates the state and sets exactly the given value and variance.", "quantifier": "every covariance, transition interval, non-negative noise and state index", "why_tests_cant": "Loss of semidefiniteness appears only after particular sequences of resets.", "anchors": ["src/cssrlib/pppssr.py: pppos.udstate", "src/cssrlib/pppssr.py: pppos.initx"]}
{"id": "C60", "title": "A carrier ambiguity lives exactly as long as its satellite is tracked", "statement": "Over one call of udstate the ambiguity of a satellite and frequency is reset to 0 with variance 0 exactly when its constellation is used, it has a value and it is edited or was out longer than maxout; otherwise an existing value and variance are kept unchanged; an absent one starts, with variance sig_n0^2, from code and phase, and equals the true ambiguity for noise-free two-frequency data (or single frequency without slant delay), whatever other satellites do.", "quantifier": "every state, covariance, outage counter, epoch of distinct satellites, number of frequencies and layout", "why_tests_cant": "The update runs over 233 satellites and all frequencies with shared counters and slant-delay resets; a wrong index disturbs another satellite's ambiguity only for particular constellations.", "anchors": ["src/cssrlib/pppssr.py: pppos.udstate", "src/cssrlib/pppssr.py: pppos.initx"]}
{"id": "C61", "title": "Integer search returns the closest integer vectors", "statement": "Whenever mlambda(ahat, Q, ncands) in mode 1 (or msearch or estimILS on given factors) returns, the columns are ncands distinct integer vectors, the norms beside them are their squared distances from ahat in the metric of the inverse of Q in increasing order, and no other integer vector is closer than any of them, provided ncands integer vectors lie within the initial bound.", "quantifier": "every dimension, every number of candidates, every positive-definite covariance and float vector (exact arithmetic)", "why_tests_cant": "The search prunes a tree of unbounded size with a shrinking bound and cached partial sums; a wrong cache or bound loses the optimum only for particular geometries.", "anchors": ["src/cssrlib/mlambda.py: msearch", "src/cssrlib/mlambda.py: estimILS", "src/cssrlib/mlambda.py: mlambda"]}
{"id": "C62", "title": "MADOCA coverage messages are stored area by area", "statement": "After decode_mdc_stec_area every area announced in the message has the announced shape (the last one if repeated), all other areas of this and other regions keep theirs, the reference hour is the hour containing the time sent, and no stored correction changes.", "quantifier": "every message content and every earlier state", "why_tests_cant": "Few areas and no updates occur in recordings.", "anchors": ["src/cssrlib/cssr_mdc.py: decode_mdc_stec_area"]}
{"id": "C63", "title": "MADOCA ionosphere corrections reach the right area and satellite", "statement": "decode_mdc_stec_corr stores, for the announced area only, exactly the satellites sent with their quality, type and coefficients, with absent coefficients zero, and get_stec then returns for each satellite the polynomial of these coefficients at the given offset.", "quantifier": "every correction message, every number of satellites per constellation, every offset", "why_tests_cant": "Sign bits, the four coefficient types and mixed constellations multiply to more cases than recordings contain.", "anchors": ["src/cssrlib/cssr_mdc.py: decode_mdc_stec_corr, get_stec"]}
{"id": "C64", "title": "MADOCA selects an area that contains the position", "statement": "find_grid_index selects an announced area containing the position whenever there is one and none otherwise, and get_dpos is then the offset from the reference point of that area.", "quantifier": "every history of messages, every position", "why_tests_cant": "Continuum of positions and arbitrary sets of areas.", "anchors": ["src/cssrlib/cssr_mdc.py: find_grid_index, get_dpos"]}
{"id": "C65", "title": "The GLONASS channel table of a RINEX header is read completely", "statement": "After decode_obsh every satellite of the GLONASS SLOT / FRQ # records, however many records they span, has its announced frequency channel and no other satellite has one.", "quantifier": "every table, every order of the other header records", "why_tests_cant": "Test files have one constellation state.", "anchors": ["src/cssrlib/rinex.py: rnxdec._decode_obsh"]}
{"id": "C66", "title": "RINEX observations are stored at their satellite and signal", "statement": "decode_obs returns one row per satellite of the requested constellations in file order; the entry of a requested signal is the value in the column the header assigns to it, zero if blank, missing or not in the header, and its loss-of-lock flag is set when the file says so.", "quantifier": "every header, every list of requested signals, every epoch", "why_tests_cant": "Blank and truncated columns, differing orders and numbers of signals combine freely.", "anchors": ["src/cssrlib/rinex.py: rnxdec.decode_obs", "src/cssrlib/rinex.py: rnxdec.setSignals"]}
{"id": "C67", "title": "Rover and base epochs are paired without loss", "statement": "sync_obs returns epochs closer than the threshold, and no epoch it skipped has any partner within the threshold in the other file.", "quantifier": "every two increasing sequences of epochs, every threshold", "why_tests_cant": "Gaps and offsets occur in arbitrary patterns.", "anchors": ["src/cssrlib/rinex.py: sync_obs"]}
{"id": "C68", "title": "F/NAV ephemerides come from the four pages last received, of one issue", "statement": "Every F/NAV page of a satellite returns either nothing or the ephemeris made of the four page types last received from that satellite, all with the same issue of data, with every field at its transmitted value; as soon as the four pages are complete the ephemeris is returned.", "quantifier": "every sequence of pages of all satellites", "why_tests_cant": "Order of pages and changes of issue combine freely.", "anchors": ["src/cssrlib/rawnav.py: RawNav.decode_gal_fnav"]}
{"id": "C69", "title": "SBAS grid delays belong to the announced grid points", "statement": "After any mask and delay messages, the ionospheric delay and error indicator held for a grid point of a band are those sent for that point under the current issue of the mask; points without a message have none.", "quantifier": "every history of grid masks and delay messages", "why_tests_cant": "Mask changes are rare, and values are stored by position in the mask.", "anchors": ["src/cssrlib/sbas.py: sbasDec.decode_sbas_igpmask", "src/cssrlib/sbas.py: sbasDec.decode_sbas_iono"]}
{"id": "C70", "title": "A TESLA key is accepted exactly if it belongs to the authenticated chain", "statement": "verify_key_chain accepts a first key exactly if hashing it, with the time of each step, as many times as there are subframes since the root key gives the root key, and a later key exactly if one step gives the preceding key.", "quantifier": "every hash function, every key, every time", "why_tests_cant": "Chains have thousands of steps and cross hours, days and weeks; recordings cover minutes.", "anchors": ["src/cssrlib/osnma.py: osnma.update_key_chain, verify_key_chain"]}
{"id": "C71", "title": "A public key is renewed only by a message with a valid Merkle path", "statement": "decode_dsm_pkr stores a new public key exactly if the key with its identifier is a leaf of the Merkle tree whose root is loaded, at the announced position, and the padding is right; otherwise the stored keys are unchanged.", "quantifier": "every message, every set of loaded keys, every tree root", "why_tests_cant": "Key renewals are rare; forged messages do not occur in recordings.", "anchors": ["src/cssrlib/osnma.py: osnma.decode_dsm_pkr, verify_pdp"]}
{"id": "C72", "title": "OSNMA sections are those of one subframe of one satellite", "statement": "decode processes a HKROOT and a MACK section exactly when the fifteen pages of a subframe of a satellite have arrived, and the sections are the pages of that subframe in order, whatever other satellites sent in between.", "quantifier": "every interleaving of pages of all satellites, with losses", "why_tests_cant": "Losses of pages occur in arbitrary patterns.", "anchors": ["src/cssrlib/osnma.py: osnma.decode"]}
{"id": "C73", "title": "Tags are accepted only in the order of the announced look-up table", "statement": "verify_maclt accepts the tags of a section exactly if each has the kind of data and, where the table requires it, the satellite that the announced table gives for its position and for the parity of the subframe.", "quantifier": "every section, every table, every time", "why_tests_cant": "The system transmits one table at a time; the others never occur in recordings.", "anchors": ["src/cssrlib/osnma.py: osnma.verify_maclt, decode_tags_info"]}
{"id": "C74", "title": "Genuine tags authenticate the data they cover", "statement": "When the key of a section has been verified, its tag sequence check and look-up check hold and a tag fits the data received in the preceding subframe, then the count of authentications of that data increases; otherwise it does not.", "quantifier": "every key, every MAC function, every section, every time", "why_tests_cant": "Needs genuine tags of every kind at every time of the week.", "anchors": ["src/cssrlib/osnma.py: osnma.decode, decode_mack, verify_macseq, verify_navmsg, save_auth_nav"]}
{"id": "C75", "title": "A field sent in parts is the number its parts spell", "statement": "A field transmitted in two or three parts in different words is read as the number its parts spell when put side by side; a signed one takes its sign from the first bit of the first part.", "quantifier": "every buffer, every place and width of the parts", "why_tests_cant": "Every split, width and sign pattern; a wrong shift shows only when the low parts are not zero.", "anchors": ["src/cssrlib/rawnav.py: RawNav.getbitu2, getbits2, getbitu3, getbits3"]}
{"id": "C76", "title": "BDS D1 subframes of any satellites in any order assemble into the ephemeris last sent", "statement": "After any sequence of D1 subframes of all BDS satellites, the ephemeris returned for a satellite has every parameter as sent in the last subframes 1, 2 and 3 of that satellite, belonging together, with its times in the week nearest to the transmission and in one time scale.", "quantifier": "every sequence of subframes, every content", "why_tests_cant": "Interleavings of satellites and subframes; transmissions on either side of a week change.", "anchors": ["src/cssrlib/rawnav.py: RawNav.decode_bds_d1"]}
{"id": "C77", "title": "BDS D2 pages of any satellites in any order assemble into the ephemeris last sent", "statement": "After any sequence of D2 pages of all BDS satellites, the ephemeris returned for a satellite has every parameter as sent in the last pages 1 and 3 to 10 of subframe 1 of that satellite, belonging together.", "quantifier": "every sequence of pages, every content", "why_tests_cant": "Ten pages in any order with every value of some thirty fields, many of them split between words and pages.", "anchors": ["src/cssrlib/rawnav.py: RawNav.decode_bds_d2"]}
{"id": "C78", "title": "CNAV messages of any satellites in any order assemble into the ephemeris last sent", "statement": "After any sequence of CNAV messages of all GPS and QZSS satellites, the ephemeris returned for a satellite has every parameter as sent in its last messages with ephemeris and clock of one time, toe and toc in the week nearest to the transmission and the time of prediction in the week nearest to it.", "quantifier": "every sequence of messages, every content", "why_tests_cant": "Interleavings of types and satellites; weeks at which the eight-bit week of prediction wraps.", "anchors": ["src/cssrlib/rawnav.py: RawNav.decode_gps_cnav"]}
{"id": "C79", "title": "A CNAV-2 frame is read as the ephemeris sent", "statement": "For every CNAV-2 frame of a GPS or QZSS satellite whose third subframe carries the group delays, the ephemeris returned has every parameter as sent, with the time of ephemeris in the week nearest to the transmission.", "quantifier": "every frame, every satellite", "why_tests_cant": "Every value of forty fields at every time of the week.", "anchors": ["src/cssrlib/rawnav.py: RawNav.decode_gps_cnav2"]}
{"id": "C80", "title": "B-CNAV1, 2 and 3 messages assemble into the ephemeris last sent", "statement": "After any sequence of B2a or B2b messages of all BDS satellites, and for every B1C frame, the ephemeris returned has every parameter as sent in the last messages of that satellite, consecutive and of one issue, with its times in the week nearest to the transmission and in one time scale.", "quantifier": "every sequence of messages, every content", "why_tests_cant": "Interleavings of types and satellites with every value of the fields.", "anchors": ["src/cssrlib/rawnav.py: RawNav.decode_bds_b1c, decode_bds_b2a, decode_bds_b2b"]}
{"id": "C81", "title": "NavIC ephemeris from subframes", "statement": "After any sequence of NavIC LNAV subframes of all satellites, the ephemeris returned is made of the subframes 1 and 2 last received from that satellite, consecutive by their time counts, with every parameter as sent, the ten week bits completed to the week nearest to the receiver's, and the times in the weeks nearest to the transmission.", "quantifier": "every sequence of subframes, every content", "why_tests_cant": "Interleavings of subframes and satellites with every value of the fields.", "anchors": ["src/cssrlib/rawnav.py: RawNav.decode_irn_lnav"]}
{"id": "C82", "title": "GLONASS FDMA ephemeris from strings", "statement": "After any sequence of GLONASS strings of all satellites, the ephemeris returned is made of strings 1 to 4 last received from that satellite two seconds apart (and the time differences of its last string 5); sign-and-magnitude numbers are read exactly, and Moscow times of day become the GPS times of the nearest day, also around midnight and across the week.", "quantifier": "every sequence of strings, every reception time, every content", "why_tests_cant": "Interleavings of strings with every time of day and sign pattern.", "anchors": ["src/cssrlib/rawnav.py: RawNav.decode_glo_fdma", "src/cssrlib/gnss.py: utc2gpst"]}
{"id": "C83", "title": "GLONASS CDMA ephemeris from L1OC and L3OC messages", "statement": "After any sequence of L1OC or L3OC messages of all satellites, the ephemeris returned is that of messages 10, 11 and 12 (and 16 for L3OC) of one interval of that satellite, with every number as sent and the day of the four-year period turned into GPS time.", "quantifier": "every sequence of messages, every content", "why_tests_cant": "Interleavings of types and satellites with every value of the fields.", "anchors": ["src/cssrlib/rawnav.py: RawNav.decode_glo_l1oc, decode_glo_l3oc, decode_glo_cdma", "src/cssrlib/rawnav.py: gep2time"]}
{"id": "C84", "title": "SBAS geostationary navigation message", "statement": "An SBAS message 9 is reported with position, velocity, acceleration, clock, accuracy and health as sent, and its time of day in the day nearest to the reception; other messages are ignored.", "quantifier": "every content and reception time", "why_tests_cant": "Every value of the fields and every second of the week.", "anchors": ["src/cssrlib/rawnav.py: RawNav.decode_sbs_l1"]}
{"id": "C85", "title": "RTCM code bias messages carry the biases of each signal", "statement": "For every RTCM or IGS code bias message the decoder reads to the end and stores, for every satellite and signal named, the bias sent under the RINEX name of that signal; biases of other satellites and signals, and all other corrections, stay unless the message is newer than the last. A message written by the encoder is received with the biases given to it.", "quantifier": "every message, every state of the decoder", "why_tests_cant": "Any number of satellites with any choice of signals after any earlier messages.", "anchors": ["src/cssrlib/rtcm.py: rtcm.decode_cssr_cbias, decode_head, rtcme.encode_cssr_cbias"]}
{"id": "C86", "title": "RTCM phase bias messages carry biases, discontinuity counters and yaw angles", "statement": "For every RTCM (1265-1270, 85-89) or IGS phase bias message the decoder reads to the end and stores for every satellite the yaw angle and rate if sent, and for every signal named the bias, the integer flag, the wide-lane indicator if sent and the discontinuity counter; everything else stays unless the message is newer than the last. A message written by the encoder is received with what was given to it.", "quantifier": "every message, every state of the decoder", "why_tests_cant": "Any number of satellites with any choice of signals, three layouts.", "anchors": ["src/cssrlib/rtcm.py: rtcm.decode_cssr_pbias, decode_head, rtcme.encode_cssr_pbias"]}
{"id": "C87", "title": "RTCM ephemeris messages carry the ephemeris sent", "statement": "For every RTCM ephemeris message (GPS 1019, GLONASS 1020, NavIC 1041, BeiDou 1042, SBAS 1043, QZSS 1044, Galileo 1045 and 1046) the decoder returns an ephemeris with every parameter as sent, at its scale, with the truncated week completed to the week nearest to the receiver's and times of day to the nearest day, and stops at the end of the message.", "quantifier": "every content, every receiver time", "why_tests_cant": "Every value of some thirty fields of up to 38 bits at every time.", "anchors": ["src/cssrlib/rtcm.py: rtcm.decode_gps_eph, decode_glo_eph, decode_gal_eph, decode_qzs_eph, decode_bds_eph, decode_irn_eph, decode_sbs_eph"]}
{"id": "C88", "title": "RTCM station messages change exactly what they carry", "statement": "For every station message (1005, 1006, 1032, 1007, 1008, 1033, 1230), with texts of any length that fits, the decoder sets the attributes the message carries to the values sent, leaves the others, and stops at the end of the message.", "quantifier": "every message, every state of the station, texts of every length", "why_tests_cant": "Five texts of 0 to 255 characters before each other, sixteen choices of biases.", "anchors": ["src/cssrlib/rtcm.py: rtcm.decode_ant_desc, decode_sta_pos, decode_glo_bias"]}
{"id": "C89", "title": "RTCM troposphere messages set the delay model of their network", "statement": "For every RTCM troposphere message (95) the decoder reads to the end and sets, for the network named and for no other, the zenith delays, gradients, mapping function coefficients and grid point residuals sent, the nominal values added, the points before the first with residual zero; values marked as missing become NaN. A message written by the encoder leaves at the receiver the values that were given to the encoder.", "quantifier": "every message, every state of the decoder, every number of grid points", "why_tests_cant": "Any number of points, any residual width from none to fifteen bits, with or without each kind of residual.", "anchors": ["src/cssrlib/rtcm.py: rtcm.decode_ssr_trop, decode_head, rtcme.encode_ssr_trop"]}
{"id": "C90", "title": "RTCM ionosphere messages set the slant delay polynomials and residuals of their satellites", "statement": "For every RTCM ionosphere message (96-100) the decoder reads to the end and leaves, for the network named and for no other, exactly the satellites of the mask, each with the polynomial and the residuals sent for it; a part not sent leaves what was there. A message written by the encoder gives every satellite at the receiver the polynomial that was given to the encoder.", "quantifier": "every message of the five constellations, every state of the decoder", "why_tests_cant": "Any choice of 64 satellites, any number of points, widths up to 31 bits, two optional parts.", "anchors": ["src/cssrlib/rtcm.py: rtcm.decode_ssr_iono, decode_head, rtcme.encode_ssr_iono"]}
{"id": "C91", "title": "RTCM grid messages define the points sent", "statement": "For every RTCM grid message (61) of a list of points the decoder leaves the network's points: the reference point and every further one at the sum of the steps up to it, in latitude, longitude and, if sent, height, numbered consecutively from the number sent, with the steps kept for each point.", "quantifier": "every message, every number of points", "why_tests_cant": "Up to 255 points, each position the sum of all steps before it, any of them missing.", "anchors": ["src/cssrlib/rtcm.py: rtcm.decode_ssr_grid"]}
{"id": "C92", "title": "RTCM minimum integrity messages give every satellite the status sent", "statement": "For every RTCM minimum integrity message (3, 2000), with any choice of constellations, satellites and frequencies, the decoder leaves exactly the constellations sent, each with its issue, status word, monitored satellites and fault source, and exactly its satellites, each with the frequencies, issue, integrity and monitoring status sent for it; time, provider, validity and update interval are those of the header. Nothing of the SSR integrity information changes.", "quantifier": "every message, every state of the decoder", "why_tests_cant": "Any subset of six constellations, 64 satellites each, eight frequencies each, every length depending on the masks before.", "anchors": ["src/cssrlib/rtcm.py: rtcm.decode_integrity_min, decode_integ_head, Integrity"]}
{"id": "C93", "title": "RTCM SSR integrity messages exclude exactly the satellites flagged", "statement": "For every RTCM SSR integrity message (11, 12, 13, 2011) the decoder leaves exactly the constellations and satellites sent with their flags, and the list of excluded satellites holds exactly those flagged do-not-use, each once. A message written by the encoder is received with the flags given to it.", "quantifier": "every message, every state of the decoder", "why_tests_cant": "Any subset of six constellations and 64 satellites each; a satellite missing from the list is used although it must not be.", "anchors": ["src/cssrlib/rtcm.py: rtcm.decode_integrity_ssr, decode_integ_head, rtcme.encode_integrity_ssr"]}
{"id": "C94", "title": "Network RTK residual messages give every satellite the residuals sent", "statement": "For every network RTK residual message (1030, 1031, 1303, 1304, 1305) the decoder ends at the end of the message, every satellite of the message has exactly the five residuals sent, all others keep theirs, the station and its number of references are those sent, and the decoder takes over the time of the message.", "quantifier": "every message, every state of the decoder", "why_tests_cant": "Any number of satellites of five constellations; field widths depend on the constellation.", "anchors": ["src/cssrlib/rtcm.py: rtcm.decode_nrtk_residual, decode_nrtk_time"]}
{"id": "C95", "title": "decode_time gives the epoch of the message", "statement": "For every RTCM observation, state space and network residual message and every week, decode_time gives the epoch the message carries; for a message without one it gives False.", "quantifier": "every message, week and current time", "why_tests_cant": "All seconds of all weeks, week ends included, for six constellations with different time scales.", "anchors": ["src/cssrlib/rtcm.py: rtcm.decode_time, decode_nrtk_time, decode_msm_time"]}
{"id": "C96", "title": "The time field of an observation message gives back the time", "statement": "For every constellation and every time in whole milliseconds, encode_msm_time gives a field that fits 30 bits, and decode_msm_time with the week it gives returns the same time.", "quantifier": "every constellation and time", "why_tests_cant": "All milliseconds, including week ends, day ends in Moscow time and leap seconds.", "anchors": ["src/cssrlib/rtcm.py: rtcme.encode_msm_time, rtcm.decode_msm_time"]}
{"id": "C97", "title": "Grid points written by the encoder are received where they were given", "statement": "For every network of a grid (types 0 and 1, up to 256 points), encode_ssr_grid writes the grid message whose points are those of that network in order, and the decoder has every point at the position given, to the resolution of the message.", "quantifier": "every grid, network and buffer", "why_tests_cant": "Any number of points; each is sent as a difference to the one before, so an error in one moves all after it.", "anchors": ["src/cssrlib/rtcm.py: rtcme.encode_ssr_grid, rtcm.decode_ssr_grid"]}
{"id": "C98", "title": "Satellite antenna messages give every frequency the corrections sent", "statement": "For every satellite antenna message (80-84), with or without corrections by nadir angle and for any choice of satellites and frequencies, the decoder ends at the end of the message, each frequency of each satellite of the message has exactly the corrections sent for it, and all others keep theirs.", "quantifier": "every message, every state of the decoder", "why_tests_cant": "Any subset of 64 satellites and six frequencies each; every length depends on flags and masks before it.", "anchors": ["src/cssrlib/rtcm.py: rtcm.decode_ssr_satant, satAntCorr"]}
{"id": "C99", "title": "Merging two correction streams adds exactly the satellites of the other", "statement": "merge_cssr with an object of the same facility appends to every network exactly the satellites it did not have, each once, gives them the corrections of the other object (orbit with its issue, STEC with its coefficients), and changes no correction of any other satellite; with an object of another facility it changes nothing and returns False.", "quantifier": "every pair of objects with any networks, satellites and corrections", "why_tests_cant": "Any overlap of satellite lists in 33 networks with nine dictionaries each.", "anchors": ["src/cssrlib/cssrlib.py: cssr.merge_cssr, local_corr"]}
{"id": "C100", "title": "IGS ionosphere messages are read to their end", "statement": "For every IGS VTEC message (4076, subtype 201), with any layers, degrees and orders, the decoder ends at the end of the message.", "quantifier": "every message", "why_tests_cant": "The number of coefficients depends on degree and order of each layer.", "anchors": ["src/cssrlib/rtcm.py: rtcm.decode_vtec, decode_igsssr"]}
