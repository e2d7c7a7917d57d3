(** RTCM ephemeris and station messages: /repo/src/cssrlib/rtcm.py 779-801, 2467-2937, 3946-4050.
    - Conventions of RawModel.v and GloModel.v: an ephemeris is the list of the attributes assigned; floating point rounding is not
      modelled.  [time], the attribute [self.time], is in whole seconds.
    - eph.fit (1019, 1044) is kept beside the list.
    - [None] = Python exception.  The texts of a station are byte strings: decode() raises for bytes that are not UTF-8, which is
      not modelled (bytes below 128 never raise).
    - Logging (out_log) is not modelled. *)
From Verif Require Import CssrState.
From Verif Require Export Base BitModel RawModel GloModel.
Notation length := List.length.
Open Scope Z_scope.

Inductive rout := OEph (e : eph) (fit : option Z) | OGlo (g : geph).

(** 2547-2602 *)
Definition rtcm_gps_eph (time : gtime) (b : bits) (i : nat) : option (nat * rout) :=
  do prn <- getu b i 6; do week <- getu b (i + 6) 10; do sva <- getu b (i + 16) 4; do code <- getu b (i + 20) 2; do idot <- gets b (i + 22) 14;
  let i := (i + 36)%nat in
  do iode <- getu b i 8; do toc <- getu b (i + 8) 16; do af2 <- gets b (i + 24) 8; do af1 <- gets b (i + 32) 16; do af0 <- gets b (i + 48) 22;
  let i := (i + 70)%nat in
  do iodc <- getu b i 10; do crs <- gets b (i + 10) 16; do deln <- gets b (i + 26) 16; do M0 <- gets b (i + 42) 32; do cuc <- gets b (i + 74) 16;
  let i := (i + 90)%nat in
  do e <- getu b i 32; do cus <- gets b (i + 32) 16; do Asq <- getu b (i + 48) 32; do toe <- getu b (i + 80) 16; do cic <- gets b (i + 96) 16;
  let i := (i + 112)%nat in
  do OMG0 <- gets b i 32; do cis <- gets b (i + 32) 16; do i0 <- gets b (i + 48) 32; do crc <- gets b (i + 80) 16; do omg <- gets b (i + 96) 32;
  let i := (i + 128)%nat in
  do OMGd <- gets b i 24; do tgd <- gets b (i + 24) 8; do svh <- getu b (i + 32) 6; do flag <- getu b (i + 38) 1; do fit <- getu b (i + 39) 1;
  let i := (i + 40)%nat in
  let w := adjustweek 1 week time in
  Some (i, OEph [ (Fdeln, Sc deln 43); (FM0, Sc M0 31); (Fe, V e 33); (FA, V (Asq * Asq) 38); (FOMG0, Sc OMG0 31); (Fi0, Sc i0 31); (Fomg, Sc omg 31);
    (FOMGd, Sc OMGd 43); (Fidot, Sc idot 43); (Fcrs, V crs 5); (Fcrc, V crc 5); (Fcus, V cus 29); (Fcuc, V cuc 29); (Fcis, V cis 29); (Fcic, V cic 29);
    (Ftoes, I (toe * 16)); (Ftoe, T (gpst2time 1 w (toe * 16))); (Ftoc, T (gpst2time 1 w (toc * 16))); (Ftot, T time);
    (Faf0, V af0 31); (Faf1, V af1 43); (Faf2, V af2 55); (Fweek, I w); (Fsat, I (prn2sat GPS prn));
    (Fsva, I sva); (Fcode, I code); (Fiode, I iode); (Fiodc, I iodc); (Ftgd, V tgd 31); (Fsvh, I svh); (Fflag, I flag); (Fmode, I 0)] (Some fit)).
(** 2604-2669: the coordinates of all three axes are those of the first *)
Definition rtcm_glo_eph (time : gtime) (b : bits) (i : nat) : option (nat * rout) :=
  do prn <- getu b i 6; do frq <- getu b (i + 6) 5; do cn <- getu b (i + 11) 1; do svh <- getu b (i + 12) 1; do P1 <- getu b (i + 13) 2;
  let i := (i + 15)%nat in
  do tkh <- getu b i 5; do tkm <- getu b (i + 5) 6; do tks <- getu b (i + 11) 1;
  let i := (i + 12)%nat in
  do bn <- getu b i 1; do P2 <- getu b (i + 1) 1; do tb <- getu b (i + 2) 7;
  let i := (i + 9)%nat in
  do xd <- gets b i 24; do x <- gets b (i + 24) 27; do xdd <- gets b (i + 51) 5;
  let i := (i + 56)%nat in
  do yd <- gets b i 24; do y <- gets b (i + 24) 27; do ydd <- gets b (i + 51) 5;
  let i := (i + 56)%nat in
  do zd <- gets b i 24; do z <- gets b (i + 24) 27; do zdd <- gets b (i + 51) 5;
  let i := (i + 56)%nat in
  do P3 <- getu b i 1; do gamn <- gets b (i + 1) 11; do P <- getu b (i + 12) 2; do ln <- getu b (i + 14) 1; do taun <- gets b (i + 15) 22; do dtaun <- gets b (i + 37) 5;
  let i := (i + 42)%nat in
  do En <- getu b i 5; do P4 <- getu b (i + 5) 1; do FT <- getu b (i + 6) 4; do NT <- getu b (i + 10) 11; do M <- getu b (i + 21) 2; do ad <- getu b (i + 23) 1;
  do NA <- getu b (i + 24) 11; do tauc <- gets b (i + 35) 32; do N4 <- getu b (i + 67) 5; do taugps <- gets b (i + 72) 22; do ln5 <- getu b (i + 94) 1;
  let i := (i + 102)%nat in
  let '(week, tow) := time2gpst 1 time in
  let tod := tow mod 86400 in
  let day := tow - tod in
  let tof := glo_day (tkh * 3600 + tkm * 60 + tks * 30 - 10800) tod in
  let toe := glo_day (tb * 900 - 10800) tod in
  Some (i, OGlo [ (Gfrq, I (frq - 7)); (Gvel 0, V (1000 * xd) 20); (Gpos 0, V (1000 * x) 11); (Gacc 0, V (1000 * xdd) 30);
    (Gvel 1, V (1000 * xd) 20); (Gpos 1, V (1000 * x) 11); (Gacc 1, V (1000 * xdd) 30);
    (Gvel 2, V (1000 * xd) 20); (Gpos 2, V (1000 * x) 11); (Gacc 2, V (1000 * xdd) 30);
    (Ggamn, V gamn 40); (Gtaun, V taun 30); (Gdtaun, V dtaun 30); (Gage, I En); (Gsat, I (prn2sat GLO prn)); (Gsvh, I bn); (Giode, I (Z.land tb 127));
    (Gtof, T (utc2gpst 1 (gpst2time 1 week (day + tof)))); (Gtoe, T (utc2gpst 1 (gpst2time 1 week (day + toe)))); (Gmode, I 0);
    (Gstatus, I (Z.lor (Z.lor (Z.lor (Z.lor (Z.lor (Z.shiftl M 7) (Z.shiftl P4 6)) (Z.shiftl P3 5)) (Z.shiftl P2 4)) (Z.shiftl P1 2)) P))]).
(** 2671-2736; [fnav]: message 1045 *)
Definition rtcm_gal_eph (fnav : bool) (time : gtime) (b : bits) (i : nat) : option (nat * rout) :=
  do prn <- getu b i 6; do week <- getu b (i + 6) 12; do iod <- getu b (i + 18) 10; do sisa <- getu b (i + 28) 8; do idot <- gets b (i + 36) 14;
  let i := (i + 50)%nat in
  do toc <- getu b i 14; do af2 <- gets b (i + 14) 6; do af1 <- gets b (i + 20) 21; do af0 <- gets b (i + 41) 31;
  let i := (i + 72)%nat in
  do crs <- gets b i 16; do deln <- gets b (i + 16) 16; do M0 <- gets b (i + 32) 32; do cuc <- gets b (i + 64) 16;
  let i := (i + 80)%nat in
  do e <- getu b i 32; do cus <- gets b (i + 32) 16; do Asq <- getu b (i + 48) 32; do toe <- getu b (i + 80) 14; do cic <- gets b (i + 94) 16;
  let i := (i + 110)%nat in
  do OMG0 <- gets b i 32; do cis <- gets b (i + 32) 16; do i0 <- gets b (i + 48) 32; do crc <- gets b (i + 80) 16; do omg <- gets b (i + 96) 32;
  let i := (i + 128)%nat in
  do OMGd <- gets b i 24; do tgd <- gets b (i + 24) 10;
  let i := (i + 34)%nat in
  do (tb, svh, i) <- (if fnav
      then do hs <- getu b i 2; do dvs <- getu b (i + 2) 1; Some ([], Z.shiftl hs 7 + Z.shiftl dvs 6, (i + 10)%nat)
      else do tgd2 <- gets b i 10; do hs <- getu b (i + 10) 2; do dvs <- getu b (i + 12) 1; do hs1 <- getu b (i + 13) 2; do dvs1 <- getu b (i + 15) 1;
           Some ([(Ftgdb, V tgd2 32)], Z.lor (Z.shiftl hs 7 + Z.shiftl dvs 6) (Z.shiftl hs1 1 + dvs1), (i + 18)%nat));
  let w := adjustweek 1 week time in
  Some (i, OEph ([ (Fdeln, Sc deln 43); (FM0, Sc M0 31); (Fe, V e 33); (FA, V (Asq * Asq) 38); (FOMG0, Sc OMG0 31); (Fi0, Sc i0 31); (Fomg, Sc omg 31);
    (FOMGd, Sc OMGd 43); (Fidot, Sc idot 43); (Fcrs, V crs 5); (Fcrc, V crc 5); (Fcus, V cus 29); (Fcuc, V cuc 29); (Fcis, V cis 29); (Fcic, V cic 29);
    (Ftoes, I (toe * 60)); (Ftoe, T (gpst2time 1 w (toe * 60))); (Ftoc, T (gpst2time 1 w (toc * 60))); (Ftot, T time);
    (Faf0, V af0 34); (Faf1, V af1 46); (Faf2, V af2 59); (Fweek, I w); (Fsat, I (prn2sat GAL prn));
    (Fsva, I sisa); (Fcode, I 517); (Fiode, I iod); (Fiodc, I iod); (Ftgd, V tgd 32)] ++ tb ++
    [(Fsvh, I svh); (Fmode, I (if fnav then 1 else 0))]) None).
(** 2738-2794 *)
Definition rtcm_qzs_eph (time : gtime) (b : bits) (i : nat) : option (nat * rout) :=
  do svid <- getu b i 4; do toc <- getu b (i + 4) 16; do af2 <- gets b (i + 20) 8; do af1 <- gets b (i + 28) 16; do af0 <- gets b (i + 44) 22;
  let i := (i + 66)%nat in
  do iode <- getu b i 8; do crs <- gets b (i + 8) 16; do deln <- gets b (i + 24) 16; do M0 <- gets b (i + 40) 32; do cuc <- gets b (i + 72) 16;
  let i := (i + 88)%nat in
  do e <- getu b i 32; do cus <- gets b (i + 32) 16; do Asq <- getu b (i + 48) 32; do toe <- getu b (i + 80) 16; do cic <- gets b (i + 96) 16;
  let i := (i + 112)%nat in
  do OMG0 <- gets b i 32; do cis <- gets b (i + 32) 16; do i0 <- gets b (i + 48) 32; do crc <- gets b (i + 80) 16; do omg <- gets b (i + 96) 32;
  let i := (i + 128)%nat in
  do OMGd <- gets b i 24; do idot <- gets b (i + 24) 14; do code <- getu b (i + 38) 2; do week <- getu b (i + 40) 10; do sva <- getu b (i + 50) 4;
  let i := (i + 54)%nat in
  do svh <- getu b i 6; do tgd <- gets b (i + 6) 8; do iodc <- getu b (i + 14) 10; do fit <- getu b (i + 24) 1;
  let i := (i + 25)%nat in
  let w := adjustweek 1 week time in
  Some (i, OEph [ (Fdeln, Sc deln 43); (FM0, Sc M0 31); (Fe, V e 33); (FA, V (Asq * Asq) 38); (FOMG0, Sc OMG0 31); (Fi0, Sc i0 31); (Fomg, Sc omg 31);
    (FOMGd, Sc OMGd 43); (Fidot, Sc idot 43); (Fcrs, V crs 5); (Fcrc, V crc 5); (Fcus, V cus 29); (Fcuc, V cuc 29); (Fcis, V cis 29); (Fcic, V cic 29);
    (Ftoes, I (toe * 16)); (Ftoe, T (gpst2time 1 w (toe * 16))); (Ftoc, T (gpst2time 1 w (toc * 16))); (Ftot, T time);
    (Faf0, V af0 31); (Faf1, V af1 43); (Faf2, V af2 55); (Fweek, I w); (Fsat, I (prn2sat QZS (svid + 192)));
    (Fsva, I sva); (Fcode, I code); (Fiode, I iode); (Fiodc, I iodc); (Ftgd, V tgd 31); (Fsvh, I svh); (Fflag, I 1); (Fmode, I 0)] (Some fit)).
(** 2796-2847: Cus is read with 16 bits (2804-2805), af2 is taken from af0 (2817) *)
Definition rtcm_bds_eph (time : gtime) (b : bits) (i : nat) : option (nat * rout) :=
  do prn <- getu b i 6; do week <- getu b (i + 6) 13; do ura <- getu b (i + 19) 4; do idot <- gets b (i + 23) 14;
  let i := (i + 37)%nat in
  do aode <- getu b i 5; do toc <- getu b (i + 5) 17; do af2 <- gets b (i + 22) 11; do af1 <- gets b (i + 33) 22; do af0 <- gets b (i + 55) 24;
  let i := (i + 79)%nat in
  do aodc <- getu b i 5; do crs <- gets b (i + 5) 18; do deln <- gets b (i + 23) 16; do M0 <- gets b (i + 39) 32; do cuc <- gets b (i + 71) 18;
  let i := (i + 89)%nat in
  do e <- getu b i 32; do cus <- gets b (i + 32) 16; do Asq <- getu b (i + 48) 32; do toe <- getu b (i + 80) 17; do cic <- gets b (i + 97) 18;
  let i := (i + 115)%nat in
  do OMG0 <- gets b i 32; do cis <- gets b (i + 32) 18; do i0 <- gets b (i + 50) 32; do crc <- gets b (i + 82) 18; do omg <- gets b (i + 100) 32;
  let i := (i + 132)%nat in
  do OMGd <- gets b i 24; do tgd1 <- gets b (i + 24) 10; do tgd2 <- gets b (i + 34) 10; do svh <- getu b (i + 44) 1;
  let i := (i + 45)%nat in
  Some (i, OEph [ (Fdeln, Sc deln 43); (FM0, Sc M0 31); (Fe, V e 33); (FA, V (Asq * Asq) 38); (FOMG0, Sc OMG0 31); (Fi0, Sc i0 31); (Fomg, Sc omg 31);
    (FOMGd, Sc OMGd 43); (Fidot, Sc idot 43); (Fcrs, V crs 6); (Fcrc, V crc 6); (Fcus, V cus 31); (Fcuc, V cuc 31); (Fcis, V cis 31); (Fcic, V cic 31);
    (Ftoes, I (toe * 8)); (Ftoe, T (bdt2gpst 1 (bdt2time 1 week (toe * 8)))); (Ftoc, T (bdt2gpst 1 (bdt2time 1 week (toc * 8)))); (Ftot, T time);
    (Faf0, V af0 33); (Faf1, V af1 50); (Faf2, V af0 66); (Fweek, I week); (Fsat, I (prn2sat BDS prn));
    (Fsva, I ura); (Fiode, I aode); (Fiodc, I aodc); (Ftgd, D tgd1 10); (Ftgdb, D tgd2 10); (Fsvh, I svh); (Fmode, I 0)] None).
(** 2849-2901: af2 is taken from af0 (2868) *)
Definition rtcm_irn_eph (time : gtime) (b : bits) (i : nat) : option (nat * rout) :=
  do prn <- getu b i 6; do week <- getu b (i + 6) 10; do af0 <- gets b (i + 16) 22; do af1 <- gets b (i + 38) 16; do af2 <- gets b (i + 54) 8;
  let i := (i + 62)%nat in
  do ura <- getu b i 4; do toc <- getu b (i + 4) 16; do tgd <- gets b (i + 20) 8; do deln <- gets b (i + 28) 22; do iode <- getu b (i + 50) 8;
  let i := (i + 68)%nat in
  do svh <- getu b i 2; do cuc <- gets b (i + 2) 15; do cus <- gets b (i + 17) 15; do cic <- gets b (i + 32) 15;
  let i := (i + 47)%nat in
  do cis <- gets b i 15; do crc <- gets b (i + 15) 15; do crs <- gets b (i + 30) 15; do idot <- gets b (i + 45) 14; do M0 <- gets b (i + 59) 32;
  let i := (i + 91)%nat in
  do toe <- getu b i 16; do e <- getu b (i + 16) 32; do Asq <- getu b (i + 48) 32; do OMG0 <- gets b (i + 80) 32; do omg <- gets b (i + 112) 32;
  let i := (i + 144)%nat in
  do OMGd <- gets b i 22; do i0 <- gets b (i + 22) 32;
  let i := (i + 58)%nat in
  let w := adjustweek 1 week time in
  Some (i, OEph [ (Fdeln, Sc deln 41); (FM0, Sc M0 31); (Fe, V e 33); (FA, V (Asq * Asq) 38); (FOMG0, Sc OMG0 31); (Fi0, Sc i0 31); (Fomg, Sc omg 31);
    (FOMGd, Sc OMGd 41); (Fidot, Sc idot 43); (Fcrs, V crs 4); (Fcrc, V crc 4); (Fcus, V cus 28); (Fcuc, V cuc 28); (Fcis, V cis 28); (Fcic, V cic 28);
    (Ftoes, I (toe * 16)); (Ftoe, T (gpst2time 1 w (toe * 16))); (Ftoc, T (gpst2time 1 w (toc * 16))); (Ftot, T time);
    (Faf0, V af0 31); (Faf1, V af1 43); (Faf2, V af0 55); (Fweek, I w); (Fsat, I (prn2sat IRN prn));
    (Fsva, I ura); (Fiode, I iode); (Fiodc, I iode); (Ftgd, V tgd 31); (Fsvh, I svh); (Fmode, I 0)] None).
(** 2903-2937: [self.P2_31] (2930) does not exist: AttributeError for every message *)
Definition rtcm_sbs_eph (time : gtime) (b : bits) (i : nat) : option (nat * rout) := None.

(** 4012-4035 of decode, for these messages; [None] also stands for the types not modelled here *)
Definition decode_reph (time : gtime) (msg : bits) : option (nat * rout) :=
  do mt <- getu msg 24 12;
  if mt =? 1019 then rtcm_gps_eph time msg 36
  else if mt =? 1020 then rtcm_glo_eph time msg 36
  else if mt =? 1041 then rtcm_irn_eph time msg 36
  else if (mt =? 1042) || (mt =? 63) then rtcm_bds_eph time msg 36
  else if mt =? 1043 then rtcm_sbs_eph time msg 36
  else if mt =? 1044 then rtcm_qzs_eph time msg 36
  else if (mt =? 1045) || (mt =? 1046) then rtcm_gal_eph (mt =? 1045) time msg 36
  else None.

(* ---------- stations ---------- *)
(** attributes of a reference station (rtcm.py:828-836; refid, np_staid, sti, ant_height are created by the messages); the position
    in units of 0.1 mm, the biases of 0.02 m; texts as bytes *)
Record sta := Sta { s_refid : option Z; s_np : option Z; s_sti : option Z; s_pos : option (Z * Z * Z); s_hgt : option Z; s_bias : option (list Z);
  s_desc : option bits; s_antid : option Z; s_serial : option bits; s_rcv : option bits; s_firm : option bits; s_rser : option bits }.
(** msg[j:j+n]: clipped to the message *)
Definition btext (msg : bits) (j n : nat) : bits := firstn (8 * n) (skipn (8 * j) msg).
(** 2467-2504; j: bytes, i: bits *)
Definition decode_ant_desc (mt : Z) (s : sta) (msg : bits) (i : nat) : option (sta * nat) :=
  do refid <- getu msg i 12; do nc <- getu msg (i + 12) 8;
  let i := (i + 20)%nat in let j := 7%nat in let n := Z.to_nat nc in
  let desc := btext msg j n in
  let i := (i + 8 * n)%nat in
  do antid <- getu msg i 8;
  let i := (i + 8)%nat in let j := (j + n + 1)%nat in
  do (ser, i, j) <- (if (mt =? 1008) || (mt =? 1033)
      then do nc <- getu msg i 8; let n := Z.to_nat nc in Some (Some (btext msg (j + 1) n), (i + 8 + 8 * n)%nat, (j + 1 + n)%nat)
      else Some (s_serial s, i, j));
  do (rcv, firm, rser, i) <- (if mt =? 1033
      then do nc <- getu msg i 8; let n := Z.to_nat nc in let i := (i + 8)%nat in let j := (j + 1)%nat in
           let rcv := btext msg j n in let i := (i + 8 * n)%nat in let j := (j + n)%nat in
           do nc <- getu msg i 8; let n := Z.to_nat nc in let i := (i + 8)%nat in let j := (j + 1)%nat in
           let firm := btext msg j n in let i := (i + 8 * n)%nat in let j := (j + n)%nat in
           do nc <- getu msg i 8; let n := Z.to_nat nc in let i := (i + 8)%nat in let j := (j + 1)%nat in
           Some (Some rcv, Some firm, Some (btext msg j n), (i + 8 * n)%nat)
      else Some (s_rcv s, s_firm s, s_rser s, i));
  Some (Sta (Some refid) (s_np s) (s_sti s) (s_pos s) (s_hgt s) (s_bias s) (Some desc) (Some antid) ser rcv firm rser, i).
(** 2506-2533 *)
Definition decode_sta_pos (mt : Z) (s : sta) (msg : bits) (i : nat) : option (sta * nat) :=
  let ext := (mt =? 1005) || (mt =? 1006) in
  do (np, i) <- (if mt =? 1032 then do v <- getu msg i 12; Some (Some v, i + 12)%nat else Some (s_np s, i));
  do refid <- getu msg i 12;
  let i := (i + 18)%nat in
  do (sti, i) <- (if ext then do ind <- getu msg i 4; Some (Some (Z.land ind 1), i + 4)%nat else Some (s_sti s, i));
  do xp <- gets msg i 38;
  let i := (i + 38 + if ext then 2 else 0)%nat in
  do yp <- gets msg i 38;
  let i := (i + 38 + if ext then 2 else 0)%nat in
  do zp <- gets msg i 38;
  let i := (i + 38)%nat in
  do (hgt, i) <- (if mt =? 1006 then do h <- getu msg i 16; Some (Some h, i + 16)%nat else Some (s_hgt s, i));
  Some (Sta (Some refid) np sti (Some (xp, yp, zp)) hgt (s_bias s) (s_desc s) (s_antid s) (s_serial s) (s_rcv s) (s_firm s) (s_rser s), i).
(** 2539-2543: range(4) from k on *)
Fixpoint glo_biases (n : nat) (mask : Z) (msg : bits) (i : nat) : option (list Z * nat) :=
  match n with
  | O => Some ([], i)
  | S m =>
      if Z.land (Z.shiftr mask (Z.of_nat m)) 1 =? 1
      then do v <- gets msg i 16; do (l, j) <- glo_biases m mask msg (i + 16)%nat; Some (v :: l, j)
      else do (l, j) <- glo_biases m mask msg i; Some (0 :: l, j)
  end.
(** 2535-2545 *)
Definition decode_glo_bias (s : sta) (msg : bits) (i : nat) : option (sta * nat) :=
  do refid <- getu msg i 12; do cb <- getu msg (i + 12) 1; do sigmask <- getu msg (i + 16) 4;
  do (l, i) <- glo_biases 4 sigmask msg (i + 20)%nat;
  Some (Sta (Some refid) (s_np s) (s_sti s) (s_pos s) (s_hgt s) (Some l) (s_desc s) (s_antid s) (s_serial s) (s_rcv s) (s_firm s) (s_rser s), i).
(** 4003-4011 of decode, for these messages *)
Definition decode_sta (s : sta) (msg : bits) : option (sta * nat) :=
  do mt <- getu msg 24 12;
  if (mt =? 1007) || (mt =? 1008) || (mt =? 1033) then decode_ant_desc mt s msg 36
  else if (mt =? 1005) || (mt =? 1006) || (mt =? 1032) then decode_sta_pos mt s msg 36
  else if mt =? 1230 then decode_glo_bias s msg 36
  else None.
