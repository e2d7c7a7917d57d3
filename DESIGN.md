# Formal model of cssrlib: design and trusted base

Source modelled: `/repo/src/cssrlib` (read as text, never run). Prover: Rocq/Coq 8.16.1.
Files: `rocq/theories/`. `*Model.v` (also `RtcmFrame.v`, `RtcmSsr.v`, `CssrState.v`) = executable
definitions, each citing file and lines; `*Spec.v` = independent specifications; `Prop*.v` = the
property theorems only, each closed by `exact` and followed by `Print Assumptions`, with a concrete
`Example` beside it; all other files = lemmas. `MANIFEST.json` says which theorems belong to which
property of `properties.jsonl`.

Suffixes: `_partial` = the claim with an extra premise or for part of the inputs; `_refuted` = an
instance on which the claim of the property is false of the model (computed), i.e. a disagreement
between the code and what a user relies on.

## Trusted base

1. Coq's kernel (including `vm_compute`), and the definitions of the model files as a reading of
   the Python text. No plug-in, no axiom of our own, no `Admitted`, no disabled kernel check.
2. What `Print Assumptions` lists. Every theorem of the manifest is "Closed under the global
   context" except the ones below, which talk about real numbers or IEEE doubles and depend on
   axioms of Coq's standard library only:

   | theorems | axioms |
   |---|---|
   | C17_quality_monotone, C17_quality_defined | sig_forall_dec, functional_extensionality_dep |
   | C45_inside, C63_delays, C64_find_partial | the two above, sig_not_dec |
   | C17_quality_roundtrip_partial, C17_quality_roundtrip_refuted, C34_quantise, C64_circle_refuted | the three above, Classical_Prop.classic |

   (`ClassicalDedekindReals.sig_forall_dec`, `ClassicalDedekindReals.sig_not_dec`,
   `FunctionalExtensionality.functional_extensionality_dep`.) `coqchk` additionally names
   `mathcomp.ssreflect.fintype.CardDef.cardEdef`: an artefact of a sealed module of mathcomp (a
   parameter of a module that is instantiated), which no `Print Assumptions` mentions.
3. Behaviour of libraries that the model states instead of deriving:
   * `bitstruct` (MSB first, `uN`, `sN`, `bN`, error when the buffer is too short or the value does
     not fit); numpy indexing (negative index counts from the end, IndexError outside);
   * `crccheck`'s Crc24LteA: CRC-24 with polynomial 0x864CFB, initial value 0, no reflection (from
     its published parameters; the package is not part of the repository);
   * `galois` (GF(256) arithmetic, inverse) and `numpy.linalg` (inverse): matrices over a field;
   * Python's `int`, `float`, `str` on text, as far as described in RnxModel.v; dict order;
   * cryptography of OSNMA (hash, MAC, signature) = arbitrary functions.

## Conventions shared by all model files

* **Buffers and bit fields.** `bitstruct` works on byte arrays with MSB-first bit numbering. A
  buffer is a `list bool` (first element = MSB of byte 0). `uN` is the big-endian unsigned number
  of N bits, `sN` its two's complement reading, `bN` = `uN <> 0`. Reading past the end raises
  `bitstruct.Error`: the model returns an error value.
* **Exceptions** are values: `option` or a result type; the model never turns an exception into a
  normal-looking value. Where a branch raises, the theorem says so.
* **Numbers.** Python integers are `Z`/`N`/`nat`. Decoded physical values are kept as the integer
  mantissa in units of the scale factor written in the code (NaN = `None`); rounding of IEEE
  double multiplication by the scale is *not* modelled (exception: C34_quantise, which is about
  IEEE doubles). Algebraic code (interpolation, filters, LAMBDA, ionosphere) is modelled over exact
  rationals/reals/an abstract ordered field.
* **Time.** `gtime_t(time, sec)` is a pair of integers: whole seconds and a fraction in ticks of
  1/U second, for an arbitrary `U > 0` (theorems hold for every `U`, so for every rational fraction).
* **Dictionaries** are association lists in insertion order.
* **Loops** of the code are structural recursions; `while` loops whose number of turns is not
  bounded by the input take a step counter, and theorems hold for every counter that suffices.
* **Log output, monitor output, plotting** are not modelled anywhere.

## What is modelled

| source (src/cssrlib) | functions | model | properties |
|---|---|---|---|
| gnss.py 137-185, 1194-1289 | uGNSS, prn2sat, sat2prn, sat2id, id2sat | SatModel | C01-C03 |
| gnss.py 642-655, 955-1192 and time helpers of rawnav, rtcm, cssrlib, cssr_pvs, ephemeris | gtime_t, epochs, weeks, leap seconds, GLONASS and day/week adjustments | TimeModel | C04-C09, C48-C51 |
| gnss.py 45-80, 186-316, 352-639; signal tables of cssrlib, cssr_bds, rtcm | rSigRnx, uTYP, uSIG, ssig2rsig, rsig2code, msm2rsig | SigModel | C10-C13, C52 |
| gnss.py 1738-1748; cssrlib.py 476-560; sval variants | copy_buff, decode_mask, encode_mask, sval | BitModel | C14-C16 |
| cssrlib.py 508-516, 1504-1510 | quality_idx, quality2qi | QualModel | C17 |
| cssrlib.py 218-361, 476-1206; cssr_has.py 17-75 | state of `cssr`, all decode_cssr_* methods, decode_cssr, check_validity, chk_stat | CssrState, CssrModel, CssrValid | C18-C20, C22, C23 |
| cssrlib.py 1392-1423 | decode_l6msg | L6Model | C21 |
| cssr_has.py 135-231 | cnav_msg: page collection and erasure decoding | HasModel, HasField | C24, C25 |
| ephemeris.py 17-42, 486-735, 860-876 | findeph, findalm, choice and use of corrections in satposs | EphModel | C26, C27, C53 |
| peph.py 307-403, interppol | epoch search, window, Neville interpolation, clock interpolation | PephModel, PephField | C28, C29, C54 |
| pppssr.py 31-262, 1050-1184; gnss.py 1772-1808; ppprtk.py 11-24; rtk.py 14-27 | state layout, noise, options, restamb, ddidx, holdamb | PppModel | C30, C55, C56, C58 |
| pppssr.py 244-464, 775-1048; gnss.py 1343-1366; pntpos.py 186-211 | udstate, sdres, ddcov, kfupdate, varerr, csmooth | FiltModel | C31, C32, C47, C57, C59, C60 |
| mlambda.py 26-242, 289-336 | ldldecom, reduction, msearch, estimILS, mlambda (parmode 1, 3) | LamModel | C42, C61 |
| rtcm.py framing, 3946-4062 | checksum, synchronisation, message tables | RtcmFrame, RtcmCrc | C33, C35 |
| rtcm.py 779-795, 987-1172, 1294-1401, 1438-1477, 4196-4206, 4511-4683, 4919-4954 | SSR orbit, clock, combined, accuracy, high-rate clock: decoder and encoder | RtcmSsr, RtcmFloat | C34 |
| rtcm.py 2264-2466 | MSM 1-7 decoder | MsmModel | C36, C37 |
| cssr_mdc.py 15-247 | area and correction messages, area search, delays | MdcModel | C45, C62-C64 |
| rinex.py 63-80, 812-999 | observation header, observations, sync_obs | RnxModel | C46, C65-C67 |
| rawnav.py 60-171, 173-474 | Galileo I/NAV, F/NAV, GPS/QZSS LNAV | RawModel | C40, C41, C68 |
| sbas.py 375-490, 595-726, 790-838, 1105-1180 | masks, fast and long-term corrections, IGP masks, delays | SbasModel | C44, C69 |
| sbas.py 81-190, 317-367 | searchIGP, ionoSBAS | SbasIonoModel | C43 |
| cssr_bds.py 15-end | PPP-B2b messages 1-7 | BdsModel | C44 (B2b) |
| osnma.py 116-992 | OSNMA: DSM blocks, root key, renewal of public keys, TESLA chain, look-up tables, tags, page assembly | OsnmaModel | C38, C39, C70-C74 |
| rawnav.py 111-140, 476-662, 664-772, 774-821, 867-1281 | split fields; GPS/QZSS CNAV and CNAV-2; BDS B-CNAV1/2/3, D1 and D2 ephemerides (iono, UTC, EOP, almanac sub-decoders and file output are not modelled: their results do not enter the ephemeris) | NavModel | C75-C80 |
| rawnav.py 1283-1371, 1553-1908 | NavIC LNAV, GLONASS FDMA, L1OC and L3OC, SBAS message 9 ephemerides (iono, UTC, EOP output of NavIC and file output are not modelled: they do not enter the ephemeris) | GloModel | C81-C84 |
| rtcm.py 987-1052, 1174-1292, 1438-1477, 3946-4072, 4511-4554, 4685-4756, 4919-4961 | code and phase bias messages, decoder and encoder (`mask_pbias` = False; int(cb/0.01) taken as the integer given, see C34_cbias_refuted; the encoder's pbias, si, di have the same keys) | BiasModel | C85, C86 |
| rtcm.py 779-801, 2467-2937, 3946-4050 | ephemeris messages and station messages | REphModel | C87, C88 |
| rtcm.py 987-1034, 3053-3336, 3946-4082, 4199-4206, 4511-4554, 4762-4972; cssrlib.py 313-332 | SSR troposphere, ionosphere and grid messages, decoder; troposphere and ionosphere, encoder (values in units of their resolution; the second order part added to the residuals by encode_ssr_iono is part of the integer given) | RAtmModel | C89-C91 |
| rtcm.py 79-83, 181-197, 788-795, 3338-3434, 3896-3931, 4084-4119, 4354-4403, 4919-4930 | minimum and SSR integrity messages, decoder; SSR integrity, encoder (dictionaries with the same keys kept as one; the encoder's tow\*1e3 and udi\*10 are the integers given) | RIntModel | C92, C93 |
| rtcm.py 1479-1545, 4002-4004, 4208-4224 | network RTK residual messages; decode_time; encode_msm_time (times in whole ms; workaround_sc134 = False) | RNetModel | C94, C95, C96 |
| rtcm.py 4420-4482, 4919-4937 | SSR grid message, encoder (positions in ticks of 1/U of the unit sent, so that the float quotient before int() is exact; grid type 2 not modelled) | RGridModel | C97 |
| rtcm.py 71-76, 439-476, 788-795, 841, 3002-3051, 4066-4068 | satellite antenna messages, decoder (corrections in mm; the number of corrections by angle, nde+1, is taken from the code: the largest angle of the message is read and not used) | RAntModel | C98 |
| cssrlib.py 219-261, 289-297, 1425-1478 | merge_cssr (values opaque; the counters gnss_n, nsat_n, nsat_g of the object and its never filled dictionaries left out; cssr_bds's own ura left out) | MergeModel | C99 |
| rtcm.py 987-1034, 1402-1450, 4000-4001; cssrlib.py 484-488 | IGS ionosphere message, decoder (position only) | VtecModel | C100 |

Each model file starts with a list of the simplifications made in it.

## What is not modelled

* Orbit and clock polynomials (eph2pos, geph2pos, satclk), troposphere and ionosphere broadcast
  models, tides, phase wind-up, antenna corrections, Earth rotation: no claim is made about them.
* `plot.py`, `tlesim.py`, `ewss.py`, `dgps.py`, `qznma.py`, `ppp.py`; the receivers' binary formats; samples
  and tests of the repository.
* RTCM: MSM encoder, SSR metadata, grid type 2 of the SSR grid encoder, extended phase bias encoder, the integrity messages other than minimum and SSR integrity.
* RINEX: navigation files, clock files, the encoder. `peph.py`: SP3, ANTEX, bias-SINEX parsers.
* `cssrlib.py`: find_grid_index, get_trop, get_stec; `cssr_has.py`: decode_cssr.
* SBAS message types 10, 12, 17, 27, 28, 34-47; SouthPAN decoder `cssr_pvs.py` except its time
  adjustment.
* `rawnav.py`: NavIC L1NAV; ionosphere, UTC, Earth orientation and almanac pages of all systems; SBAS L5.
* Floating point rounding, except where stated; memory, speed, thread safety.

## Disagreements between the code and its intended behaviour

### Proved of the model (theorem in brackets)

* prn2sat does no range check: GPS PRN 33 becomes Galileo E01 [C03_prn_range_refuted].
* Quality indicator (7,7) has the value of (7,6) [C17_quality_roundtrip_refuted].
* utc2gpst(glo2time(..)) applies the leap seconds twice [C48_glonass_epoch_refuted]; the GPS week is
  resolved in the era of the reference, not the nearest [C50_adjustweek_refuted]; dtadjust wraps only
  beyond a whole week [C51_dtadjust_refuted].
* Signal codes: GPS checks test the wrong character [C11_invalid_codes_refuted], GLONASS band 6 has no
  frequency and NavIC L5 a wrong one [C12_frequency_refuted], QZSS indices 0 and 2 coincide
  [C13_signal_index_refuted], three table entries are not valid codes [C52_table_signals_refuted].
* Compact SSR: SBAS offset missing in the mask [C18_sbas_refuted], NavIC raises [C18_navic_refuted], QZSS
  biases overwrite each other [C19_qzss_bias_refuted], combined bias without network raises
  [C19_bias_no_network_refuted], check_validity raises when corrections are missing
  [C22_no_corrections_refuted, C22_no_clock_refuted], completeness is never reported without a network
  [C23_no_network_refuted].
* L6: transmission patterns 2 and 3 raise after clearing the buffer [C21_pattern_refuted], a twelfth
  part does not fit [C21_overflow_refuted].
* HAS: the time-out counter also runs while idle [C24_idle_refuted]; page id 0 shares the row of page
  255 [C24_pid0_refuted].
* With an IODE findeph returns the first match, not the closest [C26_issue_closest_refuted]; satposs
  changes stored corrections in place for SouthPAN and SBAS [C27_unchanged_refuted]; an expired
  correction lets any ephemeris be used [C27_issue_refuted]; GLONASS uses the group delay of the
  previous satellite [C53_glonass_refuted].
* SP3: a missing position passes the test [C54_missing_refuted]; the wrong variable is tested after the
  second evaluation [C54_edge_refuted].
* PPP: zenith delay shares a slot with an ambiguity when no slant delays are estimated
  [C30_layout_refuted]; ddidx raises beyond 233 pairs [C55_defined_refuted]; sig_qb has no effect and the
  first slant delay gets no noise without zenith delay [C56_*_refuted]; option value 0 ignored, shared
  default modified, ppprtkpos without configuration raises, misspelt key [C58_*_refuted]; ddcov is not
  symmetric for arbitrary lists [C31_symmetric_refuted]; csmooth raises KeyError [C32_keyerror_refuted];
  GLONASS rows of sdres mix wavelengths [C57_glonass_refuted]; a negative interval subtracts noise
  [C59_covariance_refuted].
* RTCM: bodies below 6 bytes refused, one wrong bit in the length field accepted, truncated frames
  accepted [C33_*_refuted]; message numbers 63, 1069, 1246-1263 [C35_refuted]; encoder methods missing,
  wrong field widths, wrong satellite numbers, truncated biases [C34_*_refuted]; MSM: rough range
  unavailable, reserved bits, signals outside the table, GLONASS without channel, week boundary
  [C36_*_refuted]; loss of lock never reported [C37_refuted].
* mlambda mode 3 returns the norms of another problem [C61_mode3_refuted].
* MADOCA: unknown areas alias known ones [C45_refuted], satellite numbers out of range alias others
  [C63_range_refuted], circles use the cosine of the longitude [C64_circle_refuted].
* RINEX: continuation lines are counted wrongly for 27, 40, 41, ... types [C46_refuted, C46_fails];
  constellations with different numbers of signals raise [C66_nonuniform, C66_refuted]; loss-of-lock
  values 3, 5, 7 are ignored [C66_lli_refuted].
* Navigation messages: LNAV eccentricity signed [C41_refuted], time of transmission from the BeiDou
  origin [C41_tot_refuted], F/NAV pages 2-4 compare the wrong bits [C68_fnav_refuted].
* SBAS: grid cells near the poles and at some longitudes [C43_corners_refuted]; long-term
  corrections attributed by PRN [C44_long_refuted], a half message of another issue shifts the
  reading [C44_issue_refuted], mixed message read ten bits early [C44_mixed_long_refuted], error indicators
  read from correction bits [C44_udrei_refuted]; arrays not renewed with a new grid mask [C69_refuted,
  C69_larger_refuted].
* BeiDou B2b: accuracy message ignores IODP, combined messages use wrong positions or raise, biases of
  satellites outside the mask are misread, reserved mask bits alias [C44_b2b_*_refuted].
* **C38**: `verify_key_chain` (363-381) compares a key with `self.key_p`, the previous key read from the same MACK sequence, which was never verified: once a genuine key has been accepted, a satellite that sends two keys of another chain is believed (`C38_key_refuted`). `decode_dsm_kroot` loads the fields of any later message before its signature is checked, and the status ROOTKEY_VERIFIED stays set (`C38_root_refuted`). `verify_root_key` checks the signature of the bytes now in the DSM buffer, not of the fields loaded earlier (`C38_swap_refuted`).
* **C39**: completeness is `flg_dsm == 2^nb - 1`, so a stray block with a number of at least nb makes it impossible; a change of the chain identifier clears only the DSM of the identifier it arrives with; the blocks are not cleared when the DSM identifier changes.
* **C70**: `update_key_chain` (355-359) computes the time of each step from the start value, and once it is negative decrements the week number in every further step, not only in the first.
* **C71**: `decode_dsm_pkr` uses the hash function of the DSM-KROOT; before one has been received this is -1 and `process_hash` returns no value.
* **C72**: the mask of received pages is cleared only by the first page or when all fifteen are there.
* **C73**: the offset into the list of the second subframe is 6 for every table: for tables of four and five tags it selects shifted entries or lies beyond the list (IndexError), inside the first list for table 28.
* **C74**: in the first subframe of a week the time of the preceding subframe is negative and packing it raises; sizes of tags that are no whole number of bytes are rounded down.
* **C76**: when toe lies in another week than the transmission the week is moved away from it instead of to it (two weeks off); `toe`, `toc` are BDT, `tot` is GPS time; times of the three subframes are not compared.
* **C77**: the middle 10 bits of the mean anomaly are dropped, four bits of the root of the axis are read from page 1, the eccentricity is sign-extended, page 1 is not checked for its time.
* **C78**: the eight bits of the week of prediction are put into the current group of 256 weeks; types 31-37 fill the same slot as 30 but only 30 (61) is decoded.
* **C79**: toe in units of 300 s is compared with seconds of week, so from second 304448 on the ephemeris is dated a week late.
* **C80**: toe is never moved to the nearest week; `tot` is BDT while toe and toc are GPS time; B2b's message 10 uses the week attribute before message 30 sets it (0).
* **C81**: toe and toc stay in the week of transmission; tot is moved away from the week of transmission instead of toe; the buffer of zeros passes for subframe number 0 with count 0, so a single subframe 2 of count 1 yields an ephemeris of zeros.
* **C82**: the stored reception time is the second of the week, so strings received exactly a week apart are combined; string 5 may be of any age; `toes` is the second of the day for FDMA but of the week for CDMA.
* **C83**: decode_glo_l1oc copies 222 of the 228 bits that decode_glo_cdma reads: the last six bits of vel[1] are lost; nothing checks that messages 10, 11, 12 belong to one interval.
* **C85**: QZSS numbers 0 and 2 (L1 C/A, L1C(P)) both mean C1C, so one bias overwrites the other and C1C is sent with number 2 while C1L cannot be sent; the encoder's header counts sat_n instead of cbias; a code bias NaN makes the encoder raise; unnamed signal numbers are stored under "???"; a satellite with more signals than the table ends the message silently. Not expressible in the model: the decoder's dictionaries are keyed by strings, the encoder needs rSigRnx objects, so received biases cannot be passed on.
* **C86**: the encoder writes yaw and yaw rate whenever `yaw` has the satellite, whatever `iyaw` says, so with iyaw off the receiver reads them as signals; NaN yaw rate raises; for 1265-1270 the encoder writes twelve bits and reports no error.
* **C87**: RTCM 1042 reads Cus with 16 instead of 18 bits, so sqrtA and all that follows is shifted; 1041 and 1042 take af2 from af0; 1020 stores the first coordinate on all three axes and reads sign-and-magnitude numbers as two's complement; 1043 always raises AttributeError (`self.P2_31`); the ten week bits are completed in the receiver's period of 1024 weeks, not to the nearest week. `sva` is the index sent, whereas rawnav.py stores metres or an index depending on the system.
* **C88**: a GLONASS code-phase bias that is not sent is stored as 0, as a bias of 0 would be.
* **C89**: decode_ssr_trop raises UnboundLocalError for every message without residuals (`rh`, `ng`, `ofst` unbound); network ids above 32 raise IndexError although the field allows 1023 [C89_decode_refuted, C89_no_residual_error, C89_network_error].
* **C90**: encode_ssr_iono writes the polynomials in the order of the dictionary and the mask in the order of satellites, so they are exchanged at the receiver when the keys are not ascending [C90_order_refuted]; with residuals it needs a fourth polynomial coefficient, which decode_ssr_iono never stores [C90_residual_error]; a residual width of 0 with points raises in the decoder.
* **C91**: grid messages without heights (type 1) number the points 0, 1, 2, ... after the reference point, so the reference number occurs twice [C91_flat_number_error], and index the steps by number minus first number [C91_flat_offset_refuted]; type 2 always raises TypeError (`np.array()` without argument).
* decode_ssr_pbias_ex (90-94) always raises UnboundLocalError (`v` in decode_head), so extended phase bias messages are never usable; no theorem is claimed about them.
* **C93**: encode_integrity_ssr writes pid, SSR ids, tow, constellation mask, vp, udi; decode_integ_head and decode_integrity_ssr read tow, pid, vp, udi, area id, SSR ids, constellation mask [C93_encoder_refuted]. Read but not modelled: `integ.sat_e` is never consulted by the positioning code, so satellites flagged do-not-use stay in use; decode_integrity_ext advances 82 bits after reading 30; decode_integrity_ext_sis_local unpacks three values from one integer (TypeError for every message).
* **C94**: decode_nrtk_residual reads the time of the message and drops it: self.time stays what it was [C94_time_refuted].
* **C95**: decode_nrtk_time finds the BeiDou week from the GPS time 14 s earlier and then adds the time of week to it: in the first 14 s of a week the result is one week early [C95_network_week_error]. decode_time reads the time of an IGS message (4076) directly after the number, where version and subtype are [C95_igs_refuted], and gives False for state space messages with the numbers 41-46 and 62-79 [C95_number_error].
* **C96**: a GLONASS time inside a leap second comes back one second later [C96_leap_refuted].
* **C97**: encode_ssr_grid cuts every difference between neighbouring points down to whole steps on its own; with 30 points 0.9 steps apart the last is received 26 steps off [C97_error_refuted].
* **C99**: merge_cssr tests `sat in self.dclk` (dorb, cbias, pbias, ura) where it means cs_'s, and these are empty lists, so lines 1440-1451 never do anything. A correction left over for a satellite stays when the other object has none for it [C99_stale_refuted]. A network with a satellite to merge for which the other object has received no clocks (dclk is None) is a TypeError [C99_no_clock_error].
* **C100**: decode_vtec passes the tuple of bs.unpack_from to sval (no [0]): every message with a layer is a TypeError [C100_layer_error, C100_refuted]. A message without layers is read to its end [C100_no_layers_partial]. The coefficients would not be kept either.
### Noticed while reading, not formalised

* Compact SSR: expired clock becomes 0.0; unknown subtypes advance 16 bits; the combined message does
  not set iodssr_c; orbit, clock and bias messages do not compare iodssr.
* HAS: a clock message without mask returns -1, which is then used as a position; clock subset
  TypeError; LinAlgError leaves the received set; more than 32 pages give a non-square matrix;
  merge_cssr tests `sat in self.dclk`.
* `satposs` with no observations raises UnboundLocalError; `parse_sp3` counts an epoch that it did not
  append.
* PPP: valpos always returns True; the reference satellite's edit flag is not checked; slant delay is
  reset once per frequency; zero phases are used as observations unless qcedit removed them.
* RTCM: `set_body` and `set_checksum` have no caller; yaw is packed only if known, so the bias message
  can be shorter than its header says; GLONASS ephemeris: y and z are copies of x.
* MADOCA: `break` leaves only the inner loop; circle radius units are suspicious; delays with
  inet < 0 come from another attribute.
* RINEX encoder: types wrap only once at 13; values of 1e10 and more shift columns. `sync_obs` never
  ends when one file is exhausted.
* rawnav: CNAV accepts ephemerides without checking the issue; CNAV2 compares units of 300 s with
  seconds; B2b builds the ephemeris before the week is known; D1 and D2 adjust the week in the
  reverse direction; D2 joins parts at wrong positions; NavIC adjusts only the week of
  transmission; ionospheric grid and GGTO readers advance by other widths than they read.
* SBAS: GIVE indicator 0 refused and 15 accepted; MT6 without IODF check; one issue for all bands;
  covariance message uses one element twice; L5 types also dispatched for L1.
* OSNMA: buffers are class attributes shared by all instances; `prn_a` is never set in the module.

## Reading seeded/LOG.jsonl

Every edit that was applied and built has a line, including edits that no theorem noticed and edits
that break no claim. `theorems_failed` lists the theorems whose proof depends on a lemma that no
longer goes through after the edit. This overcounts: a lemma that restates the code literally fails
on any edit, so a listed theorem may still be true of the edited model (entry `l6a` is an edit that
breaks no claim and yet is listed with four theorems). The field `evidence` says what supports the
entry: a boolean instance of the theorem that evaluates to true on the model and to false on the
edited model (`witness`), a failing Example, or only the failure of a proof.
