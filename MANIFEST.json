{
 "claims": [
  {
   "property": "C01",
   "status": "proved",
   "theorems": [
    "C01_sat_numbering_bijection"
   ],
   "note": ""
  },
  {
   "property": "C02",
   "status": "proved",
   "theorems": [
    "C02_sat_id_roundtrip",
    "C02_id_read"
   ],
   "note": ""
  },
  {
   "property": "C03",
   "status": "partial",
   "theorems": [
    "C03_prn_range_refuted",
    "C03_prn_range_partial"
   ],
   "note": "False of the code: prn2sat does no range check, e.g. GPS PRN 33 becomes Galileo E01. Proved: an unowned PRN never lands in its own constellation's range and out-of-range numbers never decode to an owned PRN."
  },
  {
   "property": "C04",
   "status": "proved",
   "theorems": [
    "C04_calendar_roundtrip",
    "C04_time_roundtrip"
   ],
   "note": "Float seconds are exact ticks of 1/U s for every U>0; IEEE rounding not modelled."
  },
  {
   "property": "C05",
   "status": "proved",
   "theorems": [
    "C05_invalid_date_is_zero",
    "C05_day_overflow_rolls"
   ],
   "note": "Float seconds are exact ticks of 1/U s for every U>0; IEEE rounding not modelled."
  },
  {
   "property": "C06",
   "status": "proved",
   "theorems": [
    "C06_week_tow_roundtrip",
    "C06_time_week_roundtrip",
    "C06_bdt_offset"
   ],
   "note": "Float seconds are exact ticks of 1/U s for every U>0; IEEE rounding not modelled."
  },
  {
   "property": "C07",
   "status": "proved",
   "theorems": [
    "C07_timeadd_timediff",
    "C07_comparison"
   ],
   "note": "Float seconds are exact ticks of 1/U s for every U>0; IEEE rounding not modelled."
  },
  {
   "property": "C08",
   "status": "proved",
   "theorems": [
    "C08_utc2gpst_offset",
    "C08_utc_roundtrip",
    "C08_gpst_roundtrip",
    "C08_inside_leap_second",
    "C08_monotone"
   ],
   "note": "Float seconds are exact ticks of 1/U s for every U>0; IEEE rounding not modelled."
  },
  {
   "property": "C09",
   "status": "proved",
   "theorems": [
    "C09_nearest_unique",
    "C09_adjtime",
    "C09_tod2tow",
    "C09_glo2time",
    "C09_adjust_time_week",
    "C09_adjday"
   ],
   "note": "Float seconds are exact ticks of 1/U s for every U>0; IEEE rounding not modelled. The single-wrap functions are proved for inputs within 1.5 periods, the most one wrap can bridge."
  },
  {
   "property": "C10",
   "status": "proved",
   "theorems": [
    "C10_code_roundtrip",
    "C10_four_char_roundtrip",
    "C10_other_characters_refuted"
   ],
   "note": "Codes made of letters, digits and blanks; for other characters (e.g. 'C2@') the round trip is false of the code."
  },
  {
   "property": "C11",
   "status": "partial",
   "theorems": [
    "C11_invalid_codes_refuted",
    "C11_valid_codes_partial"
   ],
   "note": "False of the code: GPS checks test s[2] instead of s[1], undefined bands are not rejected, GLONASS 1X/2X are accepted. Proved: exact agreement with RINEX on all other defined bands, and every defined code is accepted."
  },
  {
   "property": "C12",
   "status": "partial",
   "theorems": [
    "C12_frequency_refuted",
    "C12_frequency_partial",
    "C12_accepted_band"
   ],
   "note": "False of the code: GLONASS band 6 has no frequency (band 5 does), NavIC L5 is wrong, accepted GPS L7I has none. Proved for every other RINEX band."
  },
  {
   "property": "C13",
   "status": "partial",
   "theorems": [
    "C13_signal_index_refuted",
    "C13_signal_index_partial"
   ],
   "note": "False for QZSS in compact SSR and RTCM tables (index 2 maps to L1C). Proved for every other constellation and for BDS B2b and MSM tables."
  },
  {
   "property": "C14",
   "status": "proved",
   "theorems": [
    "C14_copy_buff"
   ],
   "note": "On failure the partially written destination is not modelled (exception)."
  },
  {
   "property": "C15",
   "status": "proved",
   "theorems": [
    "C15_decode_mask_spec",
    "C15_encode_decode",
    "C15_decode_encode",
    "C15_decode_encode_set",
    "C15_encode_mask_error"
   ],
   "note": ""
  },
  {
   "property": "C16",
   "status": "proved",
   "theorems": [
    "C16_sval",
    "C16_sval_injective"
   ],
   "note": "Values are integer mantissas (field value before multiplication by the scale)."
  },
  {
   "property": "C17",
   "status": "partial",
   "theorems": [
    "C17_quality_monotone",
    "C17_quality_defined",
    "C17_quality_roundtrip_partial",
    "C17_quality_roundtrip_refuted"
   ],
   "note": "Round trip is false for (7,7), which decodes to the value of (7,6). Exact real arithmetic: float rounding in np.log/np.exp followed by int() is not modelled."
  },
  {
   "property": "C18",
   "status": "partial",
   "theorems": [
    "C18_mask_partial",
    "C18_sbas_refuted",
    "C18_navic_refuted"
   ],
   "note": "Proved for GPS, GLONASS, Galileo, BDS (ids 3 and 7) and QZSS, any number of blocks; false for SBAS (PRN offset 119 missing) and NavIC (KeyError)."
  },
  {
   "property": "C19",
   "status": "partial",
   "theorems": [
    "C19_orbit",
    "C19_clock",
    "C19_cbias_partial",
    "C19_pbias_partial",
    "C19_ura",
    "C19_combined",
    "C19_widths",
    "C19_stec",
    "C19_grid",
    "C19_atmos",
    "C19_stream",
    "C19_qzss_bias_refuted",
    "C19_bias_no_network_refuted"
   ],
   "note": "Bias attribution needs distinct signal keys, which QZSS signals 0 and 2 violate; the combined bias message without network raises. Values are integer mantissas."
  },
  {
   "property": "C20",
   "status": "proved",
   "theorems": [
    "C20_terminates",
    "C20_loop",
    "C20_advances"
   ],
   "note": "Python runs until the unpack raises at the end of the buffer; the exception is the value RExc."
  },
  {
   "property": "C21",
   "status": "partial",
   "theorems": [
    "C21_assembled",
    "C21_complete",
    "C21_discard",
    "C21_returns",
    "C21_pattern_refuted",
    "C21_overflow_refuted"
   ],
   "note": "Proved for every history of complete messages whose CLAS transmission pattern is 0 or 1; with pattern 2 or 3 an IndexError after clearing the buffer lets a non-start message begin a frame. The 20000-bit buffer holds eleven parts, a twelfth raises."
  },
  {
   "property": "C22",
   "status": "partial",
   "theorems": [
    "C22_expired",
    "C22_returns_partial",
    "C22_no_corrections_refuted",
    "C22_no_clock_refuted"
   ],
   "note": "cssrlib.check_validity. Whenever it returns the claim holds; it raises (KeyError/TypeError) when a mask satellite has no stored corrections yet."
  },
  {
   "property": "C23",
   "status": "partial",
   "theorems": [
    "C23_complete_partial",
    "C23_bits_stay",
    "C23_no_network_refuted",
    "C23_no_network"
   ],
   "note": "Proved for every stream and selected network; with no network selected (inet_ref = -1) lc[-1] is consulted and completeness is never reported."
  },
  {
   "property": "C24",
   "status": "partial",
   "theorems": [
    "C24_delivery",
    "C24_collects_partial",
    "C24_idle_refuted",
    "C24_pid0_refuted"
   ],
   "note": "Delivery is proved for every history of complete buffers. The converse (complete messages are delivered) needs the time-out counter to allow it, and the counter also runs while idle; reserved page id 0 shares a row with page 255."
  },
  {
   "property": "C25",
   "status": "proved",
   "theorems": [
    "C25_erasure",
    "C25_end_to_end",
    "C25_field"
   ],
   "note": "For every field in place of GF(256); the inversion itself (galois, numpy) is mathcomp's invmx."
  },
  {
   "property": "C26",
   "status": "partial",
   "theorems": [
    "C26_findeph_closest",
    "C26_findeph_issue_partial",
    "C26_issue_closest_refuted",
    "C26_findalm"
   ],
   "note": "With an IODE given the first matching entry is returned, not the closest (refuted); everything else holds for all inputs."
  },
  {
   "property": "C27",
   "status": "partial",
   "theorems": [
    "C27_used",
    "C27_complete",
    "C27_unchanged_partial",
    "C27_unchanged_refuted",
    "C27_issue_refuted"
   ],
   "note": "For SouthPAN and SBAS the stored orbit corrections are changed in place on every call; an expired correction (IODE -1) lets any ephemeris be used. nav.ephopt = 4 and the orbit formulas are outside this model."
  },
  {
   "property": "C28",
   "status": "proved",
   "theorems": [
    "C28_search",
    "C28_window"
   ],
   "note": "Search and window of pephpos and pephclk, for every table length."
  },
  {
   "property": "C29",
   "status": "proved",
   "theorems": [
    "C29_interppol",
    "C29_reproduces",
    "C29_orbit",
    "C29_clock",
    "C29_clock_file"
   ],
   "note": "Exact arithmetic over any field; sine and cosine are any functions with cos^2+sin^2=1. Standard deviations are not modelled."
  },
  {
   "property": "C30",
   "status": "partial",
   "theorems": [
    "C30_layout_partial",
    "C30_layout_refuted"
   ],
   "note": "Holds whenever slant delays are estimated or the zenith delay is not; otherwise IT() is negative and the zenith delay shares a slot with an ambiguity."
  },
  {
   "property": "C31",
   "status": "partial",
   "theorems": [
    "C31_ddcov",
    "C31_symmetric",
    "C31_sdres",
    "C31_symmetric_refuted"
   ],
   "note": "Every entry of ddcov for any blocks; symmetric exactly when the reference variance is constant in each block, which sdres guarantees (then also positive semidefinite, definite for non-zero noise settings). The function alone is not symmetric for arbitrary lists (refuted instance). Exact arithmetic."
  },
  {
   "property": "C32",
   "status": "partial",
   "theorems": [
    "C32_smoothed",
    "C32_independent",
    "C32_average",
    "C32_restart_gap",
    "C32_restart_jump",
    "C32_restart_missing_partial",
    "C32_defined_partial",
    "C32_keyerror_refuted"
   ],
   "note": "All claims hold whenever csmooth returns; when the first observation of a satellite is missing the next complete one raises KeyError. Exact arithmetic."
  },
  {
   "property": "C33",
   "status": "partial",
   "theorems": [
    "C33_frame_partial",
    "C33_short_refuted",
    "C33_divisible",
    "C33_detect_partial",
    "C33_length_refuted",
    "C33_incomplete_refuted"
   ],
   "note": "Frames with bodies of 6..1023 bytes are completed and accepted, body and surroundings untouched; acceptance of a complete frame = divisibility by the CRC-24Q generator over GF(2); bursts up to 24 bits, odd numbers of bits and double bits outside the length field are rejected for every frame length. Refuted: bodies below 6 bytes, one wrong bit in the length field, frames cut off at the end of the buffer. The CRC is crccheck's Crc24LteA, modelled from its published parameters."
  },
  {
   "property": "C34",
   "status": "partial",
   "theorems": [
    "C34_decode_partial",
    "C34_decode_igs",
    "C34_encode_partial",
    "C34_round_trip_partial",
    "C34_quantise",
    "C34_combined_refuted",
    "C34_numbers_refuted",
    "C34_glonass_refuted",
    "C34_63_refuted",
    "C34_qzss_refuted",
    "C34_ura_refuted",
    "C34_hclk_first_refuted",
    "C34_cbias_refuted"
   ],
   "note": "Decoder: every orbit, clock, combined, accuracy and high-rate clock message of every constellation (assigned, tentative and IGS numbers, 63 excepted). Round trip through the encoder: orbit, clock and accuracy messages of GPS, Galileo, BeiDou and QZSS; quantisation in double precision is exact. Refuted: combined and high-rate clock messages (encoder methods missing), assigned numbers of other constellations (empty message), GLONASS, number 63, QZSS 208 and above, accuracy lists that differ from the satellite list, code biases (truncated)."
  },
  {
   "property": "C35",
   "status": "partial",
   "theorems": [
    "C35_msm",
    "C35_ssr",
    "C35_ssr_unique",
    "C35_tables_partial",
    "C35_sct2mt",
    "C35_is_ssr_partial",
    "C35_refuted"
   ],
   "note": "MSM and the published state space numbers agree in all tables and in the decoder; refuted for 63, 1069 and 1246..1263 (mt2sct)."
  },
  {
   "property": "C36",
   "status": "partial",
   "theorems": [
    "C36_decode_partial",
    "C36_too_many",
    "C36_range_refuted",
    "C36_reserved_refuted",
    "C36_signal_refuted",
    "C36_channel_refuted",
    "C36_week_refuted"
   ],
   "note": "All seven message variants, six constellations, any masks up to 64 cells and any field contents: satellite list, signal list, epoch, pseudorange, phase, strength and lock time at the right row and column. Partial/refuted: satellites without rough range, reserved satellite bits, signal bits outside the table, GLONASS without channel, week boundary."
  },
  {
   "property": "C37",
   "status": "partial",
   "theorems": [
    "C37_refuted"
   ],
   "note": "False of the code: the loss-of-lock flag is never set, for any message and any history."
  },
  {
   "property": "C38",
   "status": "partial",
   "theorems": [
    "C38_history_partial",
    "C38_sound_partial",
    "C38_key_refuted",
    "C38_root_refuted",
    "C38_swap_refuted"
   ],
   "note": "For arbitrary hash, MAC and signature functions and every history of words and pages. Every authentication went through a tag check on earlier data, a root key verification and a key check; but the key check compares with an unverified previous key, a later root key message is loaded unverified, and the signature covers the buffer instead of the key loaded, so keys of an attacker are accepted (three refutations with an unforgeable signature). Proved in full under conditions that exclude these. Slow MAC off; satellite numbers other than 37 (UTC data)."
  },
  {
   "property": "C39",
   "status": "partial",
   "theorems": [
    "C39_blocks_partial",
    "C39_stray_refuted",
    "C39_chain_refuted",
    "C39_identifier_refuted"
   ],
   "note": "A report implies that all blocks are there, in any order and with repetitions, and the message is their concatenation; the converse while no block number beyond the announced ones was received. Blocks are kept across another identifier and, if the chain changes with another identifier, across the change."
  },
  {
   "property": "C40",
   "status": "proved",
   "theorems": [
    "C40_inav",
    "C40_lnav"
   ],
   "note": "For arbitrary interleavings of I/NAV, F/NAV and LNAV pages of all satellites; I/NAV also gives every attribute. Exact values m 2^-n instead of floats."
  },
  {
   "property": "C41",
   "status": "partial",
   "theorems": [
    "C41_fields_partial",
    "C41_refuted",
    "C41_tot_refuted"
   ],
   "note": "Eccentricity is read as signed, so values of 0.25 and more come back negative; the time of transmission is counted from the BeiDou origin. Week number from the receiver, multiples of 1024 only."
  },
  {
   "property": "C42",
   "status": "proved",
   "theorems": [
    "C42_factor",
    "C42_reduction"
   ],
   "note": "Exact arithmetic over any ordered field; rounding is any rounding to a nearest integer; the square roots taken by ldldecom are assumed exact. Termination of the loop is not claimed."
  },
  {
   "property": "C43",
   "status": "partial",
   "theorems": [
    "C43_weights",
    "C43_between",
    "C43_full",
    "C43_few",
    "C43_affine",
    "C43_grid",
    "C43_corners_partial",
    "C43_corners_refuted"
   ],
   "note": "Pierce point given in degrees (no trigonometry), exact rationals. Weights, bounds and exactness for linear fields are proved; near the poles, at some longitudes south of 75 S and for longitudes below -180 the corners looked for are not grid points and no correction is made."
  },
  {
   "property": "C44",
   "status": "partial",
   "theorems": [
    "C44_mask",
    "C44_mask_kept",
    "C44_fast_partial",
    "C44_mixed_fast_partial",
    "C44_long_partial",
    "C44_long_refuted",
    "C44_issue_refuted",
    "C44_mixed_long_refuted",
    "C44_udrei_refuted",
    "C44_b2b_mask",
    "C44_b2b_same_mask",
    "C44_b2b_refused",
    "C44_b2b_clock_refused",
    "C44_b2b_clock",
    "C44_b2b_orbit",
    "C44_b2b_ura_partial",
    "C44_b2b_bias_partial",
    "C44_b2b_mask_kept",
    "C44_b2b_valid",
    "C44_b2b_combined_refuted",
    "C44_b2b_combined_lost_refuted",
    "C44_b2b_combined2_refuted",
    "C44_b2b_ura_refuted",
    "C44_b2b_bias_refuted",
    "C44_b2b_reserved_refuted"
   ],
   "note": "Masks and fast corrections are right; error indicators only when the mask fills the block. Long-term corrections are attributed by PRN instead of mask position, a half message of another issue shifts the reading of the next one, and the long-term half of a mixed message is read ten bits early. B2b masks, orbits and clocks are right for assigned slots; accuracy messages ignore the mask issue, biases of a satellite outside the mask shift the reading, combined messages are misread or raise, and reserved mask bits alias other constellations."
  },
  {
   "property": "C45",
   "status": "partial",
   "theorems": [
    "C45_inet_partial",
    "C45_inside",
    "C45_refuted"
   ],
   "note": "Distinct indices 1..38 for the areas the regions have; every number a message can carry stays inside the table; other numbers share entries with known areas (region 1 area 9 = region 2 area 1), refuted."
  },
  {
   "property": "C46",
   "status": "partial",
   "theorems": [
    "C46_header_partial",
    "C46_fits_26",
    "C46_fails",
    "C46_refuted"
   ],
   "note": "Proved for every number n of types with floor(n/14) = floor((n-1)/13), in particular n <= 26, among arbitrary other header records; for every other n (27, 40, 41, ...) the reader ends with an exception. Numeric fields of other records are abstracted."
  },
  {
   "property": "C47",
   "status": "proved",
   "theorems": [
    "C47_update",
    "C47_defined",
    "C47_subset",
    "C47_sdres"
   ],
   "note": "Symmetry, both covariance forms, optimality of the gain, existence; also for gnss.kfupdate. Exact arithmetic (a singular S is the only failure)."
  },
  {
   "property": "C48",
   "status": "partial",
   "theorems": [
    "C48_glonass_epoch_refuted",
    "C48_glonass_epoch_partial"
   ],
   "note": "False of the code: utc2gpst(glo2time(..)) applies the leap seconds twice (18 s late since 2017)."
  },
  {
   "property": "C49",
   "status": "proved",
   "theorems": [
    "C49_gep2time",
    "C49_doy2time",
    "C49_time2doy"
   ],
   "note": "Float seconds are exact ticks of 1/U s for every U>0; IEEE rounding not modelled."
  },
  {
   "property": "C50",
   "status": "partial",
   "theorems": [
    "C50_adjustweek_refuted",
    "C50_adjustweek_partial"
   ],
   "note": "False of the code: the week is resolved in the same 1024-week era as the reference, not the nearest."
  },
  {
   "property": "C51",
   "status": "partial",
   "theorems": [
    "C51_dtadjust_refuted",
    "C51_dtadjust_partial",
    "C51_near"
   ],
   "note": "False of the code: wraps only beyond one whole week; proved: result within one week for differences up to two weeks."
  },
  {
   "property": "C52",
   "status": "partial",
   "theorems": [
    "C52_table_signals_refuted",
    "C52_table_signals_partial"
   ],
   "note": "False for exactly three entries: QZSS L6D, L6P (compact SSR) and BDS L1A (RTCM)."
  },
  {
   "property": "C53",
   "status": "partial",
   "theorems": [
    "C53_independent",
    "C53_standalone_partial",
    "C53_glonass_refuted"
   ],
   "note": "Fails only for GLONASS in single-frequency single-point mode, which uses the group delay of the previous satellite."
  },
  {
   "property": "C54",
   "status": "partial",
   "theorems": [
    "C54_missing_refuted",
    "C54_edge_refuted",
    "C54_returns_partial"
   ],
   "note": "Both halves are false of the code: (0,0,0) with an unknown clock passes the norm test, and in the last millisecond of the allowed extrapolation the second evaluation is used although it returned None."
  },
  {
   "property": "C55",
   "status": "partial",
   "theorems": [
    "C55_pairs",
    "C55_restore",
    "C55_hold",
    "C55_defined_partial",
    "C55_defined_refuted"
   ],
   "note": "All claims hold whenever ddidx returns; its index array has 233 rows for all frequencies together, beyond that it raises IndexError. Exact subtraction."
  },
  {
   "property": "C56",
   "status": "partial",
   "theorems": [
    "C56_initial_partial",
    "C56_noise_partial",
    "C56_ambiguity_refuted",
    "C56_noise_refuted"
   ],
   "note": "sig_qb never has an effect; with slant delays but no zenith delay the first satellite's slant delay gets no noise."
  },
  {
   "property": "C57",
   "status": "partial",
   "theorems": [
    "C57_rows_partial",
    "C57_glonass_refuted"
   ],
   "note": "Rows for exactly the usable differences, v and H for all constellations but GLONASS; for GLONASS v uses the reference satellite's wavelength for both ambiguities and H each satellite's own. The layout premise is that of C30."
  },
  {
   "property": "C58",
   "status": "partial",
   "theorems": [
    "C58_options_partial",
    "C58_config",
    "C58_zero_refuted",
    "C58_leak_refuted",
    "C58_ppprtk_refuted",
    "C58_csmooth_refuted"
   ],
   "note": "Positive options and own dictionaries work; zero is ignored (rtkpos passes zeros), the shared default is modified, ppprtkpos without a configuration raises, and the default's carrier-smoothing key is misspelt."
  },
  {
   "property": "C59",
   "status": "partial",
   "theorems": [
    "C59_initx",
    "C59_initx_covariance",
    "C59_covariance_partial",
    "C59_motion",
    "C59_covariance_refuted"
   ],
   "note": "Holds for non-negative intervals; a negative one subtracts noise. Exact arithmetic."
  },
  {
   "property": "C60",
   "status": "proved",
   "theorems": [
    "C60_ambiguity"
   ],
   "note": "Exact arithmetic; GLONASS satellites without a known channel are modelled as not initialised."
  },
  {
   "property": "C61",
   "status": "partial",
   "theorems": [
    "C61_msearch",
    "C61_estimILS",
    "C61_mlambda",
    "C61_mode3_refuted"
   ],
   "note": "Both search functions and the whole function in mode 1, for every returned result (termination not claimed; exact arithmetic). Refuted for mode 3: the norms returned belong to another problem. Mode 2 not covered."
  },
  {
   "property": "C62",
   "status": "proved",
   "theorems": [
    "C62_area_message"
   ],
   "note": "Messages cut off (exceptions) are not described."
  },
  {
   "property": "C63",
   "status": "partial",
   "theorems": [
    "C63_corr_message",
    "C63_delays",
    "C63_range_refuted"
   ],
   "note": "Satellite numbers must exist in their constellation and occur once; others are stored under another satellite (refuted). Delays over real numbers, not floats."
  },
  {
   "property": "C64",
   "status": "partial",
   "theorems": [
    "C64_find_partial",
    "C64_circle_refuted"
   ],
   "note": "Rectangles, over real numbers. Circles are scaled with the cosine of the longitude, so a distant position can be inside (refuted)."
  },
  {
   "property": "C65",
   "status": "proved",
   "theorems": [
    "C65_slots"
   ],
   "note": "For headers whose numbers of observation types the reader counts rightly (C46)."
  },
  {
   "property": "C66",
   "status": "partial",
   "theorems": [
    "C66_observations_partial",
    "C66_nonuniform",
    "C66_signals",
    "C66_refuted",
    "C66_lli_refuted"
   ],
   "note": "Proved when each stored constellation has the largest number of signals of every type; otherwise the epoch is refused with an exception. Loss of lock is recognised only for the indicator 1, not for 3, 5, 7. Conversion of decimal text to float is a parameter."
  },
  {
   "property": "C67",
   "status": "proved",
   "theorems": [
    "C67_sync"
   ],
   "note": "At the end of a file the code itself continues with an empty epoch; the model stops."
  },
  {
   "property": "C68",
   "status": "partial",
   "theorems": [
    "C68_fnav_partial",
    "C68_fnav_refuted"
   ],
   "note": "Sound for every page; complete for page 1. Pages 2 to 4 compare six bits of the issue of data with the satellite number and usually return nothing."
  },
  {
   "property": "C69",
   "status": "partial",
   "theorems": [
    "C69_mask_partial",
    "C69_delays_partial",
    "C69_refuted",
    "C69_larger_refuted"
   ],
   "note": "Proved while the mask of a band does not change; the arrays are not renewed when a new mask arrives."
  },
  {
   "property": "C70",
   "status": "partial",
   "theorems": [
    "C70_root_partial",
    "C70_next",
    "C70_week_refuted"
   ],
   "note": "Exact within the week of the root key and for one step at any time; across the week the times of the steps are wrong and genuine keys are refused."
  },
  {
   "property": "C71",
   "status": "partial",
   "theorems": [
    "C71_pkr",
    "C71_first_refuted"
   ],
   "note": "Exact with the hash function of the root key message last received; before any such message a genuine renewal ends with an exception."
  },
  {
   "property": "C72",
   "status": "partial",
   "theorems": [
    "C72_pages_partial",
    "C72_mixed_refuted"
   ],
   "note": "A section processed is made of the most recent pages since the last first page; if the first page of the next subframe is lost it mixes two subframes."
  },
  {
   "property": "C73",
   "status": "partial",
   "theorems": [
    "C73_lut_partial",
    "C73_second_never",
    "C73_ten_refuted"
   ],
   "note": "Exact for the tables of six tags (27, 33, 34, 35). For tables of four and five tags nothing is accepted in every second subframe, for table 28 genuine sections are refused."
  },
  {
   "property": "C74",
   "status": "partial",
   "theorems": [
    "C74_live_partial",
    "C74_layout_partial",
    "C74_week_never",
    "C74_size_refuted"
   ],
   "note": "Six tags per section; tags of 24, 32 and 40 bits. The first subframe of a week raises an exception; tags of 20 bits are not read at their place."
  },
  {
   "property": "C75",
   "status": "proved",
   "theorems": [
    "C75_unsigned2",
    "C75_unsigned3",
    "C75_signed2",
    "C75_signed3"
   ],
   "note": "All four readers of split fields."
  },
  {
   "property": "C76",
   "status": "partial",
   "theorems": [
    "C76_d1_partial",
    "C76_week",
    "C76_week_refuted",
    "C76_scale",
    "C76_mixed_refuted"
   ],
   "note": "Every parameter exact for every history. Across a week change the week is moved the wrong way; toe and toc stay in BDT; subframes of different times are combined."
  },
  {
   "property": "C77",
   "status": "partial",
   "theorems": [
    "C77_d2_partial",
    "C77_values",
    "C77_M0_refuted",
    "C77_axis_refuted",
    "C77_e_refuted",
    "C77_mixed_refuted"
   ],
   "note": "Exact result for every history. Mean anomaly without ten bits, axis with four bits of page 1, eccentricity as a signed number, page 1 of any time."
  },
  {
   "property": "C78",
   "status": "partial",
   "theorems": [
    "C78_cnav_partial",
    "C78_other",
    "C78_top",
    "C78_clock_only",
    "C78_top_refuted",
    "C78_clock_refuted"
   ],
   "note": "Every parameter exact for every history. Week of prediction off by 256 when the eight bits wrap; with a clock of types 31 to 37 nothing is returned."
  },
  {
   "property": "C79",
   "status": "partial",
   "theorems": [
    "C79_cnav2_partial",
    "C79_week",
    "C79_week_refuted"
   ],
   "note": "Every parameter exact. In the second half of the week the time of ephemeris is put a week late."
  },
  {
   "property": "C80",
   "status": "partial",
   "theorems": [
    "C80_b1c_partial",
    "C80_b2a_partial",
    "C80_b2b_partial",
    "C80_week_refuted",
    "C80_scale_refuted",
    "C80_b2b_week_refuted"
   ],
   "note": "Every parameter exact for every history. No move to the nearest week; transmission time in BDT, toe and toc in GPS time; the toe of B2b in week 0."
  },
  {
   "property": "C81",
   "status": "partial",
   "theorems": [
    "C81_irn_partial",
    "C81_cycle",
    "C81_week",
    "C81_week_refuted",
    "C81_zero_refuted"
   ],
   "note": "Every parameter exact for every history and the week completed correctly. toe and toc are never moved to the nearest week and tot is moved the other way; an empty buffer passes for a subframe 1 of count 0."
  },
  {
   "property": "C82",
   "status": "proved",
   "theorems": [
    "C82_fdma",
    "C82_truth",
    "C82_mixed_refuted"
   ],
   "note": "For every history. C82_mixed_refuted shows a limit of the pairing rule: only the second of the week is kept, so strings a week apart are combined."
  },
  {
   "property": "C83",
   "status": "partial",
   "theorems": [
    "C83_l3oc_partial",
    "C83_l1oc_partial",
    "C83_mixed_refuted",
    "C83_velocity_refuted"
   ],
   "note": "Every parameter exact for every history, except the last six bits of the second velocity of L1OC; messages of different intervals are combined."
  },
  {
   "property": "C84",
   "status": "proved",
   "theorems": [
    "C84_sbs",
    "C84_other"
   ],
   "note": "For every content and reception time."
  },
  {
   "property": "C85",
   "status": "partial",
   "theorems": [
    "C85_decode_partial",
    "C85_encode_partial",
    "C85_round_trip_partial",
    "C85_qzss_refuted",
    "C85_count_refuted",
    "C85_nan_refuted",
    "C85_unknown_refuted"
   ],
   "note": "Decoder for all messages with named signals other than QZSS number 2; encoder of GPS 1059, 68, 69, 70 with as many satellites in sat_n as have biases, all available. The four refutations show each restriction is needed."
  },
  {
   "property": "C86",
   "status": "partial",
   "theorems": [
    "C86_decode_partial",
    "C86_encode_partial",
    "C86_round_trip_partial",
    "C86_yaw_refuted",
    "C86_encoder_refuted"
   ],
   "note": "Decoder for all messages with named signals other than QZSS number 2; encoder of 85, 87, 88, 89 when the yaw flag agrees with the yaw angles known. Otherwise the message cannot be read back; 1265-1270 cannot be written."
  },
  {
   "property": "C87",
   "status": "partial",
   "theorems": [
    "C87_gps_partial",
    "C87_qzss_partial",
    "C87_galileo_partial",
    "C87_navic_partial",
    "C87_bds_partial",
    "C87_glonass_partial",
    "C87_navic_refuted",
    "C87_bds_refuted",
    "C87_glonass_refuted",
    "C87_sbas_refuted",
    "C87_week_refuted"
   ],
   "note": "GPS, QZSS, Galileo: every parameter within one period of 1024 weeks. NavIC: all but af2. BeiDou: the fields before Cus except af2. GLONASS: one coordinate of three, for two's complement numbers. SBAS always raises. The refutations show each restriction is needed."
  },
  {
   "property": "C88",
   "status": "proved",
   "theorems": [
    "C88_station",
    "C88_bias_refuted"
   ],
   "note": "For every message with bytes below 128. C88_bias_refuted shows a limit: a GLONASS bias not sent is stored as 0."
  },
  {
   "property": "C89",
   "status": "partial",
   "theorems": [
    "C89_decode_partial",
    "C89_no_residual_error",
    "C89_network_error",
    "C89_round_trip_partial",
    "C89_decode_refuted"
   ],
   "note": "Decoder and round trip for messages with residuals, networks 0 to 32. Every message without residuals and every one for network 33 or above is an error; C89_decode_refuted is the witness."
  },
  {
   "property": "C90",
   "status": "partial",
   "theorems": [
    "C90_decode_partial",
    "C90_network_error",
    "C90_round_trip_partial",
    "C90_order_refuted",
    "C90_residual_error"
   ],
   "note": "Decoder for all messages for networks 0 to 32 with residuals of at least one bit; round trip for polynomials listed in the order of the satellites, without residuals. Otherwise polynomials are exchanged between satellites, and the encoder raises for residuals with the polynomials the decoder leaves."
  },
  {
   "property": "C91",
   "status": "partial",
   "theorems": [
    "C91_points",
    "C91_flat_partial",
    "C91_flat_number_error",
    "C91_flat_offset_refuted"
   ],
   "note": "Messages with heights: in full. Without heights: positions and steps when the first number is 0; the numbers are wrong, and with another first number the steps go to other points or the message is an error."
  },
  {
   "property": "C92",
   "status": "proved",
   "theorems": [
    "C92_minimum"
   ],
   "note": "For all messages whose constellations are among the six numbered and whose satellites exist."
  },
  {
   "property": "C93",
   "status": "partial",
   "theorems": [
    "C93_decode_partial",
    "C93_encoder_refuted"
   ],
   "note": "The decoder in full. The encoder writes the header in another order and without the service area, so its messages are misread or rejected: C93_encoder_refuted."
  },
  {
   "property": "C94",
   "status": "partial",
   "theorems": [
    "C94_residual_partial",
    "C94_time_refuted"
   ],
   "note": "All but the time, which the decoder reads and drops."
  },
  {
   "property": "C95",
   "status": "partial",
   "theorems": [
    "C95_observation_partial",
    "C95_ssr_partial",
    "C95_network_partial",
    "C95_network_week_error",
    "C95_igs_refuted",
    "C95_number_error"
   ],
   "note": "True for observation messages, the published state space numbers (the time with which the decoder applies the message) and network residuals; BeiDou residuals of the first 14 s of a week are a week early, IGS messages are read at the wrong place, other accepted numbers give False."
  },
  {
   "property": "C96",
   "status": "partial",
   "theorems": [
    "C96_round_trip_partial",
    "C96_leap_refuted"
   ],
   "note": "From 1980-12-14 on, GLONASS outside leap seconds. Times are whole milliseconds, so round_i rounds nothing."
  },
  {
   "property": "C97",
   "status": "partial",
   "theorems": [
    "C97_encode_partial",
    "C97_round_trip_partial",
    "C97_any_position",
    "C97_error_refuted"
   ],
   "note": "Exact for positions that are whole multiples of the resolution; for all positions point k is within k+1 steps (C97_any_position), and no better in general: C97_error_refuted."
  },
  {
   "property": "C98",
   "status": "proved",
   "theorems": [
    "C98_antenna"
   ],
   "note": "For all messages whose satellites exist."
  },
  {
   "property": "C99",
   "status": "partial",
   "theorems": [
    "C99_merge_partial",
    "C99_facility",
    "C99_no_clock_error",
    "C99_stale_refuted"
   ],
   "note": "For networks of both objects in which all kinds of correction have been received; a network of the other object with satellites but no clocks is an error, and left-over corrections stay."
  },
  {
   "property": "C100",
   "status": "partial",
   "theorems": [
    "C100_layer_error",
    "C100_no_layers_partial",
    "C100_refuted"
   ],
   "note": "False: every message with a layer is an error; a message without layers is read to its end."
  }
 ]
}