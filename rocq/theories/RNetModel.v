(** RTCM network RTK residual messages, the time of a message, and the time field of observation messages.
    /repo/src/cssrlib/rtcm.py: 1479-1513, 1515-1545, 3946-3950, 4002-4004 (decoder), 4208-4224 (encoder).

    [None] = an exception.  Residuals are the integers of the message (the code multiplies them by 5e-4, 1e-8, 1e-7, 5e-4, 1e-8).
    A time of whole seconds is [GT sec 0] whatever the tick; the times of observation messages are in ticks of 1 ms.  The
    attribute workaround_sc134 is False, its default. *)
From Verif Require Export RtcmSsr MsmModel.
Open Scope Z_scope.
Notation length := List.length.

(** rtcm.py:1479-1494 decode_nrtk_time *)
Definition decode_nrtk_time (sys : gnss) (week : Z) (now : gtime) (msg : bits) (i : nat) : option (gtime * nat) :=
  let sz := match sys with GLO => 17%nat | _ => 20%nat end in
  do tow <- getu msg i sz;
  let t := match sys with
           | BDS => let '(w, _) := time2bdt 1 (gpst2bdt 1 (gpst2time 1 week tow)) in bdt2gpst 1 (bdt2time 1 w tow)
           | GLO => utc2gpst 1 (glo2time 1 now tow)
           | _ => gpst2time 1 week tow
           end in
  Some (t, (i + sz)%nat).

(** self.week, time, refid, nrefs, nsat, nrtk_r *)
Record nst := NST { n_week : Z; n_time : gtime; n_refid : Z; n_nrefs : Z; n_nsat : Z; n_r : dict Z (Z * Z * Z * Z * Z) }.
(** rtcm.py:1504-1511 *)
Fixpoint net_sats (sys : gnss) (n : nat) (msg : bits) (i : nat) (d : dict Z (Z * Z * Z * Z * Z)) : option (dict Z (Z * Z * Z * Z * Z) * nat) :=
  match n with
  | O => Some (d, i)
  | S n =>
      let sz := match sys with QZS => 4%nat | _ => 6%nat end in
      do svid <- getu msg i sz;
      let i := (i + sz)%nat in
      do s0c <- getu msg i 8; do s0d <- getu msg (i + 8) 9; do s0h <- getu msg (i + 17) 6; do sic <- getu msg (i + 23) 10; do sid <- getu msg (i + 33) 10;
      net_sats sys n msg (i + 43)%nat (zset (svid2sat sys svid) (s0c, s0d, s0h, sic, sid) d)
  end.
(** rtcm.py:1496-1513 decode_nrtk_residual; the time is dropped *)
Definition decode_net (sys : gnss) (s : nst) (msg : bits) (i : nat) : option (nst * nat) :=
  do (_, i) <- decode_nrtk_time sys (n_week s) (n_time s) msg i;
  do ref <- getu msg i 12; do nrefs <- getu msg (i + 12) 7; do nsat <- getu msg (i + 19) 5;
  do (d, i) <- net_sats sys (Z.to_nat nsat) msg (i + 24)%nat (n_r s);
  Some (NST (n_week s) (n_time s) ref nrefs nsat d, i).
(** rtcm.py:3946-4004 decode for these messages *)
Definition decode_nrtk (s : nst) (msg : bits) : option (nst * nat) :=
  do mt <- getu msg 24 12; match dispatch mt with KNrtk => decode_net (fst (nrtktype mt)) s msg 36 | _ => None end.

(** rtcm.py:1515-1545 decode_time; [Some None]: False *)
Definition decode_time (week : Z) (now : gtime) (msg : bits) : option (option gtime) :=
  do mt <- getu msg 24 12;
  let (sys, msm) := msmtype mt in
  if 0 <? msm then do tow <- getu msg 48 30; Some (Some (decode_msm_time sys week tow)) else
  let (sys, ssr) := ssrtype mt in
  if (0 <? ssr) || (mt =? 4076) then
    let glo := gnss_eqb sys GLO in
    do tow <- getu msg 36 (if (mt =? 4076) || negb glo then 20 else 17);
    Some (Some (if glo then utc2gpst 1 (glo2time 1 now tow) else gpst2time 1 week tow))
  else let (sys, nrtk) := nrtktype mt in
  if 0 <? nrtk then do (t, _) <- decode_nrtk_time sys week now msg 36; Some (Some t) else Some None.

(** rtcm.py:4196-4197, 4208-4224 encode_msm_time: week, epoch; ticks of 1 ms, so that nothing is rounded *)
Definition encode_msm_time (sys : gnss) (t : gtime) : Z * Z :=
  match sys with
  | GLO => let '(week, tow) := time2gpst 1000 (timeadd 1000 (gpst2utc 1000 t) 10800000) in
           let dow := Z.quot tow 86400000 in
           (week, Z.lor (Z.shiftl (Z.land dow 0x1f) 27) (Z.land (tow - dow * 86400000) 0x7ffffff))
  | BDS => time2gpst 1000 (gpst2bdt 1000 t)
  | _ => time2gpst 1000 t
  end.
