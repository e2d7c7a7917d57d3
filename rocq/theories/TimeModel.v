(** Time: /repo/src/cssrlib/gnss.py:642-655, 955-1192 and the time helpers of other modules.

    [gtime_t(time, sec)] is [GT time sec] with [sec] in ticks of 1/U second; every float number of
    seconds is likewise an integer number of ticks. [U] is an explicit argument: all theorems
    hold for every U > 0.  [int(x)] truncates ([Z.quot]), [//] and [%] are floor division
    ([Z.div], [Z.modulo]). Simplified: IEEE rounding of float seconds. *)
From Verif Require Export Base.
Open Scope Z_scope.

Record gtime := GT { gt : Z; gs : Z }.
Definition gtime0 := GT 0 0.

(** epoch array [year, month, day, hour, minute, seconds(ticks)] *)
Record epoch := EP { ey : Z; em : Z; ed : Z; eh : Z; emi : Z; es : Z }.

Definition DAY := 86400.
Definition WEEK := 604800.

(** gnss.py:961 *)
Definition doy_tab : list Z := [1; 32; 60; 91; 121; 152; 182; 213; 244; 274; 305; 335].

(** gnss.py:1126-1128 *)
Definition mday_tab : list Z :=
  [31; 28; 31; 30; 31; 30; 31; 31; 30; 31; 30; 31; 31; 28; 31; 30; 31;
   30; 31; 31; 30; 31; 30; 31; 31; 29; 31; 30; 31; 30; 31; 31; 30; 31;
   30; 31; 31; 28; 31; 30; 31; 30; 31; 31; 30; 31; 30; 31].

(** gnss.py:1133-1137: the loop [for mon in range(48): if day >= mday[mon]: day -= .. else: break];
    after the last iteration without break [mon] keeps its last value *)
Fixpoint month_loop (tab : list Z) (mon day : Z) : Z * Z :=
  match tab with
  | [] => (mon - 1, day)
  | m :: r => if day >=? m then month_loop r (mon + 1) (day - m) else (mon, day)
  end.

Section U.
Variable U : Z.

(** gnss.py:959-975 epoch2time *)
Definition epoch2time (ep : epoch) : gtime :=
  let year := ey ep in let mon := em ep in let day := ed ep in
  if (year <? 1970) || (year >? 2099) || (mon <? 1) || (mon >? 12) then gtime0
  else
    let days := (year - 1970) * 365 + (year - 1969) / 4 + nth (Z.to_nat (mon - 1)) doy_tab 0 + day - 2 in
    let days := if (year mod 4 =? 0) && (mon >=? 3) then days + 1 else days in
    let sec := Z.quot (es ep) U in
    GT (days * 86400 + eh ep * 3600 + emi ep * 60 + sec) (es ep - sec * U).

(** gnss.py:1038-1045 timeadd ([s] in ticks) *)
Definition timeadd (t : gtime) (s : Z) : gtime :=
  let sec := gs t + s in
  let tt := sec / U in
  GT (gt t + tt) (sec - tt * U).

(** gnss.py:1048-1052 timediff (result in ticks) *)
Definition timediff (t1 t2 : gtime) : Z := (gt t1 - gt t2) * U + (gs t1 - gs t2).

(** gnss.py:653-655 gtime_t.__gt__ *)
Definition gtime_gt (a b : gtime) : bool := (gt a >? gt b) || ((gt a =? gt b) && (gs a >? gs b)).

(** gnss.py:14-16 *)
Definition gpst0 := EP 1980 1 6 0 0 0.
Definition gst0 := EP 1999 8 22 0 0 0.
Definition bdt0 := EP 2006 1 1 0 0 0.

(** gnss.py:1055-1062, 1074-1081, 1093-1100: same body with a different origin; [tow] in ticks *)
Definition wt2time (e0 : epoch) (week tow : Z) : gtime :=
  let t := epoch2time e0 in
  let tow := if (tow <? - 1000000000 * U) || (tow >? 1000000000 * U) then 0 else tow in
  GT (gt t + 86400 * 7 * week + Z.quot tow U) (tow - Z.quot tow U * U).
Definition gpst2time := wt2time gpst0.
Definition gst2time := wt2time gst0.
Definition bdt2time := wt2time bdt0.

(** gnss.py:1065-1071, 1084-1090, 1113-1119; [int(sec/(86400*7))] with exact quotient *)
Definition time2wt (e0 : epoch) (t : gtime) : Z * Z :=
  let t0 := epoch2time e0 in
  let sec := gt t - gt t0 in
  let week := Z.quot sec (86400 * 7) in
  (week, (sec - week * 86400 * 7) * U + gs t).
Definition time2gpst := time2wt gpst0.
Definition time2gst := time2wt gst0.
Definition time2bdt := time2wt bdt0.

(** gnss.py:1103-1110 *)
Definition bdt2gpst (t : gtime) := timeadd t (14 * U).
Definition gpst2bdt (t : gtime) := timeadd t (- 14 * U).

(** gnss.py:979-996 leaps_ : date and utc-gpst *)
Definition leaps_ : list (epoch * Z) :=
  [ (EP 2017 1 1 0 0 0, -18); (EP 2015 7 1 0 0 0, -17); (EP 2012 7 1 0 0 0, -16);
    (EP 2009 1 1 0 0 0, -15); (EP 2006 1 1 0 0 0, -14); (EP 1999 1 1 0 0 0, -13);
    (EP 1997 7 1 0 0 0, -12); (EP 1996 1 1 0 0 0, -11); (EP 1994 7 1 0 0 0, -10);
    (EP 1993 7 1 0 0 0, -9);  (EP 1992 7 1 0 0 0, -8);  (EP 1991 1 1 0 0 0, -7);
    (EP 1990 1 1 0 0 0, -6);  (EP 1988 1 1 0 0 0, -5);  (EP 1985 7 1 0 0 0, -4);
    (EP 1983 7 1 0 0 0, -3);  (EP 1982 7 1 0 0 0, -2);  (EP 1981 7 1 0 0 0, -1) ].

(** gnss.py:1021-1027 *)
Fixpoint gpst2utc_loop (tab : list (epoch * Z)) (t : gtime) : gtime :=
  match tab with
  | [] => t
  | (e, l) :: r =>
    let tu := timeadd t (l * U) in
    if timediff tu (epoch2time e) >=? 0 then tu else gpst2utc_loop r t
  end.
Definition gpst2utc := gpst2utc_loop leaps_.

(** gnss.py:1030-1035 *)
Fixpoint utc2gpst_loop (tab : list (epoch * Z)) (t : gtime) : gtime :=
  match tab with
  | [] => t
  | (e, l) :: r =>
    if timediff t (epoch2time e) >=? 0 then timeadd t (- l * U) else utc2gpst_loop r t
  end.
Definition utc2gpst := utc2gpst_loop leaps_.

(** gnss.py:1007-1018 glo2time(tref, tod) *)
Definition glo2time (tref : gtime) (tod : Z) : gtime :=
  let time := timeadd (gpst2utc tref) (10800 * U) in
  let '(week, tow) := time2gpst time in
  let tod_p := tow mod (86400 * U) in
  let tow := tow - tod_p in
  let tod := if tod <? tod_p - 43200 * U then tod + 86400 * U
             else if tod >? tod_p + 43200 * U then tod - 86400 * U else tod in
  let time := gpst2time week (tow + tod) in
  utc2gpst (timeadd time (- 10800 * U)).

(** gnss.py:1122-1143 time2epoch *)
Definition time2epoch (t : gtime) : epoch :=
  let days := Z.quot (gt t) 86400 in
  let sec := gt t - days * 86400 in
  let '(mon, day) := month_loop mday_tab 0 (days mod 1461) in
  EP (1970 + days / 1461 * 4 + mon / 12) (mon mod 12 + 1) (day + 1)
     (sec / 3600) (sec mod 3600 / 60) (sec mod 60 * U + gs t).

(** gnss.py:1146-1151 time2doy: day of year as a float; here in ticks:
    [timediff(t, Jan 1)] + one day, i.e. the result times 86400*U *)
Definition time2doy (t : gtime) : Z :=
  let ep := time2epoch t in
  timediff t (epoch2time (EP (ey ep) 1 1 0 0 0)) + 86400 * U.

(** gnss.py:1173-1180 adjtime (dt in ticks); dt/2 compared by doubling *)
Definition adjtime (t tref : gtime) (dt : Z) : gtime :=
  let tt := timediff t tref in
  if 2 * tt <? - dt then timeadd t dt
  else if 2 * tt >? dt then timeadd t (- dt)
  else t.

(** gnss.py:1183-1191 tod2tow *)
Definition tod2tow (tod : Z) (time0 : gtime) : gtime :=
  let '(week, tow0) := time2gpst time0 in
  let tow_ref := tow0 / (86400 * U) * (86400 * U) in
  adjtime (gpst2time week (tow_ref + tod)) time0 (86400 * U).

(** cssr_pvs.py:88-94 adjust_time_week *)
Definition adjust_time_week (time time0 : gtime) : gtime :=
  let dt := timediff time time0 in
  if dt >? 302400 * U then timeadd time (- 604800 * U)
  else if dt <? - 302400 * U then timeadd time (604800 * U) else time.

(** rinex.py:134-141 adjday *)
Definition adjday (t t0 : gtime) : gtime :=
  let tt := timediff t t0 in
  if tt <? - 43200 * U then timeadd t (86400 * U)
  else if tt >? 43200 * U then timeadd t (- 86400 * U) else t.

(** ephemeris.py:45-52 dtadjust with tw = 604800 *)
Definition dtadjust (t1 t2 : gtime) : Z :=
  let dt := timediff t1 t2 in
  if dt >? 604800 * U then dt - 604800 * U
  else if dt <? - 604800 * U then dt + 604800 * U else dt.

(** rawnav.py:35-57 gep2time(N4, Nt, sod) *)
Definition gep2time (N4 Nt sod : Z) : gtime :=
  let '(j, doy) := if Nt <=? 366 then (1, Nt) else if Nt <=? 731 then (2, Nt - 366)
                   else if Nt <=? 1096 then (3, Nt - 731) else (4, Nt - 1096) in
  let year := 1996 + 4 * (N4 - 1) + j - 1 in
  let days := (year - 1970) * 365 + (year - 1969) / 4 + doy - 1 in
  let sec := Z.quot sod U in
  utc2gpst (timeadd (GT (days * 86400 + sec) (sod - sec * U)) (- 10800 * U)).

(** peph.py:1260-1268 biasdec.doy2time (integer seconds) *)
Definition doy2time (year doy sec : Z) : gtime :=
  let year := if (year =? 0) && (doy =? 0) && (sec =? 0) then 3000 else year in
  let days := (year - 1970) * 365 + (year - 1969) / 4 + doy - 1 in
  GT (days * 86400 + sec) 0.

(** rtcm.py:797-801 adjustweek *)
Definition adjustweek (week : Z) (tref : gtime) : Z :=
  let '(week_, _) := time2gpst tref in
  let week_ref := week_ / 1024 * 1024 in
  week mod 1024 + week_ref.

(** rtcm.py:991-993: epoch of a GLONASS SSR message, time of day [tod] in ticks, previous time [t]
    (the workaround flag, rtcm.py:994-995, is off) *)
Definition rtcm_glo_time (t : gtime) (tod : Z) : gtime := utc2gpst (glo2time t tod).
End U.
