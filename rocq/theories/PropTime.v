(** Properties C04-C09 and C48-C51: time conversions. [U] is the number of ticks per second. *)
From Verif Require Import TimeModel TimeSpec TimeProofs TimeLeap TimeAdjust.
Open Scope Z_scope.

(** C04 *)
Theorem C04_calendar_roundtrip : forall U y m d h mi s, 0 < U -> valid_date y m d -> valid_tod U h mi s ->
  time2epoch U (epoch2time U (EP y m d h mi s)) = EP y m d h mi s /\
  ticks U (epoch2time U (EP y m d h mi s)) = (86400 * day_number y m d + 3600 * h + 60 * mi) * U + s /\
  normal U (epoch2time U (EP y m d h mi s)).
Proof. exact epoch_roundtrip. Qed.
Print Assumptions C04_calendar_roundtrip.

Theorem C04_time_roundtrip : forall U t, 0 < U -> normal U t -> 0 <= gt t < 47482 * 86400 ->
  epoch2time U (time2epoch U t) = t /\
  valid_date (ey (time2epoch U t)) (em (time2epoch U t)) (ed (time2epoch U t)) /\
  valid_tod U (eh (time2epoch U t)) (emi (time2epoch U t)) (es (time2epoch U t)).
Proof. exact time_roundtrip. Qed.
Print Assumptions C04_time_roundtrip.

Example C04_case : valid_date 2024 2 29 /\ valid_tod 1000 23 59 59999 /\
  epoch2time 1000 (EP 2024 2 29 23 59 59999) = GT 1709251199 999.
Proof. repeat split; vm_compute; congruence. Qed.

(** C05 *)
Theorem C05_invalid_date_is_zero : forall U e,
  (ey e < 1970 \/ ey e > 2099 \/ em e < 1 \/ em e > 12) -> epoch2time U e = GT 0 0.
Proof. exact epoch2time_invalid. Qed.
Print Assumptions C05_invalid_date_is_zero.

Theorem C05_day_overflow_rolls : forall U y m d h mi s, 1970 <= y <= 2099 -> 1 <= m <= 12 ->
  epoch2time U (EP y m d h mi s) =
  GT (day_number y m d * 86400 + h * 3600 + mi * 60 + Z.quot s U) (s - Z.quot s U * U).
Proof. exact epoch2time_eq. Qed.
Print Assumptions C05_day_overflow_rolls.

Example C05_case : epoch2time 1 (EP 2023 2 29 0 0 0) = epoch2time 1 (EP 2023 3 1 0 0 0) /\
                   epoch2time 1 (EP 2023 13 1 0 0 0) = GT 0 0.
Proof. split; vm_compute; reflexivity. Qed.

(** C06 *)
Theorem C06_week_tow_roundtrip : forall U, 0 < U ->
  (forall w tow, 0 <= w -> 0 <= tow < 604800 * U ->
     time2gpst U (gpst2time U w tow) = (w, tow) /\
     time2gst U (gst2time U w tow) = (w, tow) /\
     time2bdt U (bdt2time U w tow) = (w, tow)) /\
  (forall w tow, 0 <= w -> 0 <= tow < 604800 * U ->
     ticks U (gpst2time U w tow) = (86400 * day_number 1980 1 6 + 604800 * w) * U + tow /\
     ticks U (gst2time U w tow) = (86400 * day_number 1999 8 22 + 604800 * w) * U + tow /\
     ticks U (bdt2time U w tow) = (86400 * day_number 2006 1 1 + 604800 * w) * U + tow /\
     normal U (gpst2time U w tow) /\ normal U (gst2time U w tow) /\ normal U (bdt2time U w tow)).
Proof. exact weeks_all. Qed.
Print Assumptions C06_week_tow_roundtrip.

Theorem C06_time_week_roundtrip : forall U t, 0 < U -> normal U t -> 86400 * day_number 2006 1 1 <= gt t ->
  (let (w, tow) := time2gpst U t in 0 <= w /\ 0 <= tow < 604800 * U /\ gpst2time U w tow = t) /\
  (let (w, tow) := time2gst U t in 0 <= w /\ 0 <= tow < 604800 * U /\ gst2time U w tow = t) /\
  (let (w, tow) := time2bdt U t in 0 <= w /\ 0 <= tow < 604800 * U /\ bdt2time U w tow = t).
Proof. exact weeks_inv. Qed.
Print Assumptions C06_time_week_roundtrip.

(** BDT runs 14 s behind GPST: it coincided with UTC at its epoch *)
Theorem C06_bdt_offset : forall U, 0 < U ->
  (forall t, ticks U (bdt2gpst U t) = ticks U t + 14 * U /\ normal U (bdt2gpst U t)) /\
  (forall t, normal U t -> gpst2bdt U (bdt2gpst U t) = t /\ bdt2gpst U (gpst2bdt U t) = t) /\
  (let bdt_epoch := GT (86400 * day_number 2006 1 1) 0 in bdt2gpst U bdt_epoch = utc2gpst U bdt_epoch).
Proof. exact bdt_offset_ok. Qed.
Print Assumptions C06_bdt_offset.

Example C06_case : gpst2time 1000 2290 604799999 = GT 1701561599 999 /\
  time2gpst 1000 (GT 1701561599 999) = (2290, 604799999).
Proof. split; vm_compute; reflexivity. Qed.

(** C07 *)
Theorem C07_timeadd_timediff : forall U, 0 < U ->
  (forall t s, normal U (timeadd U t s)) /\
  (forall t s, timediff U (timeadd U t s) t = s) /\
  (forall t a b, timeadd U (timeadd U t a) b = timeadd U t (a + b)) /\
  (forall t, normal U t -> timeadd U t 0 = t) /\
  (forall a b, timediff U a b = - timediff U b a) /\
  (forall a b c, timediff U a b + timediff U b c = timediff U a c) /\
  (forall a b, normal U a -> timeadd U b (timediff U a b) = a).
Proof. exact timeadd_laws. Qed.
Print Assumptions C07_timeadd_timediff.

Theorem C07_comparison : forall U a b, 0 < U -> normal U a -> normal U b ->
  (gtime_gt a b = true <-> timediff U a b > 0).
Proof. exact gtime_gt_ok. Qed.
Print Assumptions C07_comparison.

Example C07_case : timeadd 10 (GT 5 3) (-47) = GT 0 6 /\ normal 10 (GT 0 6).
Proof. split; [reflexivity|split; vm_compute; congruence]. Qed.

(** C08 *)
Theorem C08_utc2gpst_offset : forall U t, 0 < U -> normal U t ->
  ticks U (utc2gpst U t) = ticks U t + leap_count U (ticks U t) * U /\ normal U (utc2gpst U t).
Proof. exact utc2gpst_ok. Qed.
Print Assumptions C08_utc2gpst_offset.

Theorem C08_utc_roundtrip : forall U t, 0 < U -> normal U t -> gpst2utc U (utc2gpst U t) = t.
Proof. exact utc_roundtrip. Qed.
Print Assumptions C08_utc_roundtrip.

Theorem C08_gpst_roundtrip : forall U t, 0 < U -> normal U t ->
  ~ (exists i d, nth_error leap_days i = Some d /\ gt t = 86400 * d + Z.of_nat i) ->
  utc2gpst U (gpst2utc U t) = t.
Proof. exact gpst_roundtrip. Qed.
Print Assumptions C08_gpst_roundtrip.

(** ... and inside an inserted second the composition is exactly one second late *)
Theorem C08_inside_leap_second : forall U t, 0 < U -> normal U t ->
  (exists i d, nth_error leap_days i = Some d /\ gt t = 86400 * d + Z.of_nat i) ->
  utc2gpst U (gpst2utc U t) = timeadd U t U.
Proof. exact gpst_leap. Qed.
Print Assumptions C08_inside_leap_second.

Theorem C08_monotone : forall U a b, 0 < U -> normal U a -> normal U b -> ticks U a < ticks U b ->
  ticks U (utc2gpst U a) < ticks U (utc2gpst U b) /\
  (~ leap_second (gt a) -> ~ leap_second (gt b) -> ticks U (gpst2utc U a) < ticks U (gpst2utc U b)).
Proof. exact (fun U a b HU Ha Hb H => conj (utc2gpst_mono U a b HU Ha Hb H)
   (fun La Lb => gpst2utc_mono U a b HU Ha Hb La Lb H)). Qed.
Print Assumptions C08_monotone.

Example C08_case : utc2gpst 10 (GT 1483228800 5) = GT 1483228818 5 /\ utc2gpst 10 (GT 1483228799 5) = GT 1483228816 5 /\
  gpst2utc 10 (GT 1483228817 5) = GT 1483228800 5 /\ leap_second 1483228817.
Proof. repeat split; try (vm_compute; reflexivity). exists 17%nat, 17167. split; vm_compute; reflexivity. Qed.

(** C09 *)
Theorem C09_nearest_unique : forall m c a r r', 0 < m -> nearest m c a r -> nearest m c a r' ->
  r = r' \/ 2 * Z.abs (r - c) = m /\ 2 * Z.abs (r' - c) = m.
Proof. exact nearest_unique. Qed.
Print Assumptions C09_nearest_unique.

Theorem C09_adjtime : forall U t c dt, 0 < U -> 0 < dt -> 2 * Z.abs (timediff U t c) <= 3 * dt ->
  nearest dt (ticks U c) (ticks U t) (ticks U (adjtime U t c dt)) /\
  (normal U t -> normal U (adjtime U t c dt)).
Proof. exact adjtime_ok. Qed.
Print Assumptions C09_adjtime.

Theorem C09_tod2tow : forall U tod c, 0 < U -> normal U c -> 86400 * day_number 1980 1 6 <= gt c ->
  0 <= tod <= 86400 * U ->
  nearest (86400 * U) (ticks U c) tod (ticks U (tod2tow U tod c)) /\ normal U (tod2tow U tod c).
Proof. exact tod2tow_ok. Qed.
Print Assumptions C09_tod2tow.

Theorem C09_glo2time : forall U c tod, 0 < U -> normal U c -> 86400 * day_number 1981 1 1 <= gt c ->
  0 <= tod < 86400 * U ->
  exists m u, nearest (86400 * U) (ticks U (gpst2utc U c) + 10800 * U) tod m /\
    normal U u /\ ticks U u = m - 10800 * U /\ glo2time U c tod = utc2gpst U u.
Proof. exact glo2time_ok. Qed.
Print Assumptions C09_glo2time.

Theorem C09_adjust_time_week : forall U t c, 0 < U -> Z.abs (timediff U t c) <= 907200 * U ->
  nearest (604800 * U) (ticks U c) (ticks U t) (ticks U (adjust_time_week U t c)) /\
  (normal U t -> normal U (adjust_time_week U t c)).
Proof. exact adjust_time_week_ok. Qed.
Print Assumptions C09_adjust_time_week.

Theorem C09_adjday : forall U t c, 0 < U -> Z.abs (timediff U t c) <= 129600 * U ->
  nearest (86400 * U) (ticks U c) (ticks U t) (ticks U (adjday U t c)) /\
  (normal U t -> normal U (adjday U t c)).
Proof. exact adjday_ok. Qed.
Print Assumptions C09_adjday.

Example C09_case : tod2tow 1 86390 (GT 1700006405 0) = GT 1700006390 0 /\
  tod2tow 1 5 (GT 1700006390 0) = GT 1700006405 0 /\ glo2time 1 (GT 1700006405 0) 10790 = GT 1700006408 0.
Proof. repeat split; vm_compute; reflexivity. Qed.

(** C48: false of the code. glo2time already returns GPS time, utc2gpst is applied once more. *)
Theorem C48_glonass_epoch_refuted : exists c tod, normal 1 c /\ 0 <= tod < 86400 /\
  rtcm_glo_time 1 c tod = GT 1700006426 0 /\ glo2time 1 c tod = GT 1700006408 0 /\
  gpst2utc 1 (GT 1700006408 0) = GT 1700006390 0 /\ (1700006390 + 10800) mod 86400 = tod.
Proof. exists (GT 1700006405 0), 10790. repeat split; vm_compute; congruence. Qed.
Print Assumptions C48_glonass_epoch_refuted.

(** how wrong: always 18 s late, for every current time from 2017-01-02 12:00:18 GPST on *)
Theorem C48_glonass_epoch_partial : forall U c tod, 0 < U -> normal U c -> 1483358418 <= gt c -> 0 <= tod < 86400 * U ->
  rtcm_glo_time U c tod = timeadd U (glo2time U c tod) (18 * U).
Proof. exact rtcm_glo_late. Qed.
Print Assumptions C48_glonass_epoch_partial.

(** C49 *)
Theorem C49_gep2time : forall U N4 Nt sod, 0 < U -> 1 <= N4 <= 26 -> 1 <= Nt -> 0 <= sod < 86400 * U ->
  exists u, normal U u /\
    ticks U u = (86400 * (day_number (1996 + 4 * (N4 - 1)) 1 1 + Nt - 1) - 10800) * U + sod /\
    gep2time U N4 Nt sod = utc2gpst U u.
Proof. exact gep2time_ok. Qed.
Print Assumptions C49_gep2time.
Theorem C49_doy2time : forall y doy sec, 1970 <= y <= 2099 ->
  doy2time y doy sec = GT (86400 * (day_number y 1 1 + doy - 1) + sec) 0.
Proof. exact doy2time_ok. Qed.
Print Assumptions C49_doy2time.
Theorem C49_time2doy : forall U y m d h mi s, 0 < U -> valid_date y m d -> valid_tod U h mi s ->
  time2doy U (epoch2time U (EP y m d h mi s)) =
  (86400 * (day_number y m d - day_number y 1 1 + 1) + 3600 * h + 60 * mi) * U + s.
Proof. exact time2doy_ok. Qed.
Print Assumptions C49_time2doy.
Example C49_case : gep2time 1 8 60 10800 = utc2gpst 1 (epoch2time 1 (EP 2024 2 29 0 0 0)) /\
  doy2time 2024 60 0 = epoch2time 1 (EP 2024 2 29 0 0 0) /\
  time2doy 1 (epoch2time 1 (EP 2024 2 29 0 0 0)) = 60 * 86400.
Proof. repeat split; vm_compute; reflexivity. Qed.

(** C50: false of the code; the week is taken in the same 1024-week era as the reference *)
Theorem C50_adjustweek_refuted : exists c w, 0 <= w < 1024 /\ normal 1 c /\ fst (time2gpst 1 c) = 2048 /\
  adjustweek 1 w c = 3071 /\ w = 2047 mod 1024.
Proof. exists (gpst2time 1 2048 0), 1023. repeat split; vm_compute; congruence. Qed.
Print Assumptions C50_adjustweek_refuted.
Theorem C50_adjustweek_partial : forall U w c, 0 < U -> normal U c -> 86400 * day_number 1980 1 6 <= gt c ->
  let cw := fst (time2gpst U c) in
  adjustweek U w c mod 1024 = w mod 1024 /\ adjustweek U w c / 1024 = cw / 1024.
Proof. exact adjustweek_ok. Qed.
Print Assumptions C50_adjustweek_partial.

(** C51: false of the code; it wraps only beyond a whole week *)
Theorem C51_dtadjust_refuted : exists a b, dtadjust 1 a b = 500000 /\ timediff 1 a b = 500000.
Proof. exists (GT 500000 0), (GT 0 0). split; reflexivity. Qed.
Print Assumptions C51_dtadjust_refuted.
Theorem C51_dtadjust_partial : forall U a b, 0 < U -> Z.abs (timediff U a b) <= 1209600 * U ->
  (exists k, dtadjust U a b = timediff U a b + k * (604800 * U)) /\ Z.abs (dtadjust U a b) <= 604800 * U.
Proof. exact dtadjust_week. Qed.
Print Assumptions C51_dtadjust_partial.
(** an age of at most a week is not changed *)
Theorem C51_near : forall U a b, 0 < U -> Z.abs (timediff U a b) <= 604800 * U -> dtadjust U a b = timediff U a b.
Proof.
  intros U a b HU H. unfold dtadjust. rewrite Z.gtb_ltb.
  destruct (Z.ltb_spec (604800 * U) (timediff U a b)); [lia|]. destruct (Z.ltb_spec (timediff U a b) (- 604800 * U)); [lia|reflexivity].
Qed.
Print Assumptions C51_near.
Example C51_case : dtadjust 1 (GT 400 0) (GT 700 0) = - 300 /\ dtadjust 1 (GT 700000 0) (GT 0 0) = 95200.
Proof. split; reflexivity. Qed.
