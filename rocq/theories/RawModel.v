(** Navigation message decoders: /repo/src/cssrlib/rawnav.py (class RawNav 60-148, sisa2sva 157-171,
    Galileo I/NAV 173-276, F/NAV 278-361, GPS/QZSS LNAV 363-474).

    - A byte buffer is its list of bits; [bytearray(200)] is 1600 zero bits.
    - An ephemeris is the list of the attributes assigned (names in [fld]), with exact values:
      [I] integer, [V m n] = m 2^-n, [Sc m n] = m 2^-n semicircles, [ScO m n k] = m 2^-n + k 10^-10
      semicircles, [H] hundredths ([None] = NaN), [D m k] = m 10^-k, [T] time (whole seconds).  The literals P2_n of gnss.py are decimal roundings of 2^-n and
      SC2RAD of pi; floating point rounding is not modelled.
    - [None] outside = Python exception (bitstruct.Error, IndexError, KeyError); the inner option is
      the value returned (None or an ephemeris).  Attributes not used later (l2p, fit) follow the code. *)
From Verif Require Import CssrState.
From Verif Require Export Base.
Notation length := List.length.
Open Scope Z_scope.

Inductive fld := Fsat | Fweek | Fiode | Fiodc | Fsva | Fsvh | Fcode | Fmode | Fl2p | Ftoes | Ftoe | Ftoc | Ftot
  | FA | FAdot | Fe | Fi0 | FOMG0 | Fomg | FM0 | Fdeln | Fdelnd | FOMGd | Fidot | Fcrc | Fcrs | Fcuc | Fcus | Fcic | Fcis
  | Faf0 | Faf1 | Faf2 | Ftgd | Ftgdb | Fisc (k : Z) | Furai (k : Z) | Fsisai (k : Z) | Finteg | Fsismai | Fsattype
  | Ftops | Ftop | Fwnop | Fflag.
Inductive val := I (z : Z) | V (m n : Z) | Sc (m n : Z) | ScO (m n k : Z) | H (h : option Z) | D (m k : Z) | T (t : gtime).
Definition eph := list (fld * val).

(* ---------- buffers ---------- *)
(** bytearray(n) *)
Definition zbytes (n : nat) : bits := repeat false (8 * n).
Definition bytelen (b : bits) : nat := Nat.div (length b) 8.
(** msg[0:n] *)
Definition head (n : nat) (msg : bits) : bits := firstn (8 * n) msg.
(** Python's index of a slice bound: negative from the end, then clipped *)
Definition pyidx (b : bits) (k : Z) : nat :=
  let n := Z.of_nat (bytelen b) in
  let k := if k <? 0 then Z.max 0 (k + n) else Z.min k n in Z.to_nat k.
(** buff[a:b] = w : the bytes from a up to b (none when b <= a) are replaced by those of w *)
Definition setslice (buff : bits) (a b : Z) (w : bits) : bits :=
  let i := pyidx buff a in let j := Nat.max i (pyidx buff b) in
  firstn (8 * i) buff ++ w ++ skipn (8 * j) buff.
(** buff[k] = v : negative k counts from the end; [None] = IndexError or ValueError *)
Definition setbyte (buff : bits) (k v : Z) : option bits :=
  let n := Z.of_nat (bytelen buff) in
  let k := if k <? 0 then k + n else k in
  if (0 <=? k) && (k <? n) then putu buff (8 * Z.to_nat k) 8 v else None.
(** for k in range(n): buff[j+k] = u8 of msg at bit i+8k *)
Definition copybytes (n : nat) (msg : bits) (i : nat) (buff : bits) (j : Z) : option bits :=
  mfor n 0 (fun k b => do v <- getu msg (i + 8 * k) 8; setbyte b (j + Z.of_nat k) v) buff.

(** rawnav.py:63-108: the buffers, by index *)
Record rawst := RawSt { gps_lnav : dict Z bits; qzs_lnav : dict Z bits; gal_inav : dict Z bits; gal_fnav : dict Z bits }.
Definition zrange (n : nat) : list Z := map Z.of_nat (seq 0 n).
Definition fresh (n : nat) : dict Z bits := map (fun k => (k, zbytes 200)) (zrange n).
Definition raw_new : rawst := RawSt (fresh 32) (fresh 17) (fresh 36) (fresh 36).

(* ---------- helpers ---------- *)
(** 120-122 getbitu2 *)
Definition getbitu2 (b : bits) (p1 l1 p2 l2 : nat) : option Z :=
  do x <- getu b p1 l1; do y <- getu b p2 l2; Some (Z.shiftl x (Z.of_nat l2) + y).
(** 124-130 getbits2 *)
Definition getbits2 (b : bits) (p1 l1 p2 l2 : nat) : option Z :=
  do s <- getu b p1 1;
  if negb (s =? 0) then do x <- gets b p1 l1; do y <- getu b p2 l2; Some (Z.shiftl x (Z.of_nat l2) + y)
  else getbitu2 b p1 l1 p2 l2.
(** 132-135 getbitu3 *)
Definition getbitu3 (b : bits) (p1 l1 p2 l2 p3 l3 : nat) : option Z :=
  do x <- getu b p1 l1; do y <- getu b p2 l2; do z <- getu b p3 l3;
  Some (Z.shiftl x (Z.of_nat (l2 + l3)) + Z.shiftl y (Z.of_nat l3) + z).
(** 137-144 getbits3 *)
Definition getbits3 (b : bits) (p1 l1 p2 l2 p3 l3 : nat) : option Z :=
  do s <- getu b p1 1;
  if negb (s =? 0) then
    do x <- gets b p1 l1; do y <- getu b p2 l2; do z <- getu b p3 l3;
    Some (Z.shiftl x (Z.of_nat (l2 + l3)) + Z.shiftl y (Z.of_nat l3) + z)
  else getbitu3 b p1 l1 p2 l2 p3 l3.
(** 146-148 getbitg: sign and magnitude *)
Definition getbitg (b : bits) (p n : nat) : option Z :=
  do s <- getu b p 1; do v <- getu b (p + 1) (n - 1); Some (if negb (s =? 0) then - v else v).

(** 150-155 urai2sva, in hundredths of a metre; [None] = IndexError *)
Definition urai2sva (u : Z) : option Z :=
  nth_error [200; 280; 400; 570; 800; 1130; 1600; 3200; 6400; 12800; 25600; 51200; 102400; 204800; 409600; 819200] (Z.to_nat u).
(** 157-171 sisa2sva, in hundredths of a metre; [None] = NaN *)
Definition sisa2sva (s : Z) : option Z :=
  if s <? 50 then Some s
  else if s <? 75 then Some (2 * s - 50)
  else if s <? 100 then Some (4 * s - 200)
  else if s <? 126 then Some (16 * s - 1400)
  else if s =? 255 then Some (-100) else None.

(** the week moved so that the time of clock is within half a week (263-266, 351-354, 466-469) *)
Definition adj_week (week toc tow : Z) : Z :=
  if toc <? tow - 302400 then week + 1 else if toc >? tow + 302400 then week - 1 else week.

(* ---------- Galileo I/NAV ---------- *)
(** 197-275, from the complete buffer *)
Definition inav_eph (sat type_ : Z) (b : bits) : option (option eph) :=
  do sid1 <- getu b 128 6; do iod1 <- getu b (128 + 6) 10;
  do sid2 <- getu b (128*2) 6; do iod2 <- getu b (128*2 + 6) 10;
  do sid3 <- getu b (128*3) 6; do iod3 <- getu b (128*3 + 6) 10;
  do sid4 <- getu b (128*4) 6; do iod4 <- getu b (128*4 + 6) 10;
  do sid5 <- getu b (128*5) 6;
  if negb (sid1 =? 1) || negb (sid2 =? 2) || negb (sid3 =? 3) || negb (sid4 =? 4) || negb (sid5 =? 5) then Some None
  else if negb (iod1 =? iod2) || negb (iod1 =? iod3) || negb (iod1 =? iod4) then Some None
  else
  let i := (128*5 + 73)%nat in
  do wn <- getu b i 12; do tow <- getu b (i + 12) 20;
  let i := (128 + 16)%nat in
  do toe <- getu b i 14; do M0 <- gets b (i + 14) 32; do e <- getu b (i + 46) 32; do sqrtA <- getu b (i + 78) 32;
  let i := (128*2 + 16)%nat in
  do OMG0 <- gets b i 32; do i0 <- gets b (i + 32) 32; do omg <- gets b (i + 64) 32; do idot <- gets b (i + 96) 14;
  let i := (128*3 + 16)%nat in
  do OMGd <- gets b i 24; do deln <- gets b (i + 24) 16; do cuc <- gets b (i + 40) 16; do cus <- gets b (i + 56) 16;
  do crc <- gets b (i + 72) 16; do crs <- gets b (i + 88) 16; do sisa <- getu b (i + 104) 8;
  let i := (128*4 + 16)%nat in
  do svid <- getu b i 6; do cic <- gets b (i + 6) 16; do cis <- gets b (i + 22) 16; do toc <- getu b (i + 38) 14;
  do af0 <- gets b (i + 52) 31; do af1 <- gets b (i + 83) 21; do af2 <- gets b (i + 104) 6;
  let i := (128*5 + 6)%nat in
  do ai0 <- gets b i 11; do ai1 <- gets b (i + 11) 11; do ai2 <- gets b (i + 22) 14; do reg <- getu b (i + 36) 5;
  do bgda <- gets b (i + 41) 10; do bgdb <- gets b (i + 51) 10;
  do e5bhs <- getu b (i + 61) 2; do e1bhs <- getu b (i + 63) 2; do e5bdvs <- getu b (i + 65) 1; do e1bdvs <- getu b (i + 66) 1;
  let toc := toc * 60 in
  let code := if type_ =? 0 then 1 else if type_ =? 1 then 2 else if type_ =? 2 then 4 else 0 in
  let code := if (type_ =? 0) || (type_ =? 2) then Z.lor code (Z.shiftl 1 9)
              else if type_ =? 1 then Z.lor code (Z.shiftl 1 8) else code in
  let week := adj_week wn toc tow in
  Some (Some [
    (Fsat, I sat); (Fweek, I (wn + 1024));
    (FM0, Sc M0 31); (Fdeln, Sc deln 43); (Fe, V e 33); (FA, V (sqrtA * sqrtA) (2 * 19));
    (FOMG0, Sc OMG0 31); (Fi0, Sc i0 31); (Fomg, Sc omg 31); (FOMGd, Sc OMGd 43); (Fidot, Sc idot 43);
    (Fcuc, V cuc 29); (Fcus, V cus 29); (Fcrc, V crc 5); (Fcrs, V crs 5); (Fcic, V cic 29); (Fcis, V cis 29);
    (Ftoes, I (toe * 60)); (Faf0, V af0 34); (Faf1, V af1 46); (Faf2, V af2 59); (Fiode, I iod1); (Fiodc, I iod1);
    (Fsva, H (sisa2sva sisa)); (Fcode, I code);
    (Ftot, T (gst2time 1 wn tow)); (Ftoe, T (gst2time 1 week (toe * 60))); (Ftoc, T (gst2time 1 week toc));
    (Ftgd, V bgda 32); (Ftgdb, V bgdb 32);
    (Fsvh, I (Z.lor (Z.lor (Z.lor (Z.shiftl e5bhs 7) (Z.shiftl e5bdvs 6)) (Z.shiftl e1bhs 1)) e1bdvs));
    (Fmode, I 0)]).
(** 173-196 *)
Definition decode_gal_inav (sat type_ : Z) (msg : bits) (s : rawst) : option (rawst * option eph) :=
  let '(_, prn) := sat2prn sat in
  do odd <- getu msg 0 1; do page <- getu msg 1 1;
  do sid <- getu msg 2 6; do iodnav <- getu msg 8 10;
  if (sid =? 0) || (sid >? 5) then Some (s, None) else
  do buff <- zget (prn - 1) (gal_inav s);
  do b1 <- copybytes 14 msg 2 buff (sid * 16);
  do b2 <- copybytes 2 msg (2 + 8 * 14 + 8) b1 (sid * 16 + 14);
  do r <- inav_eph sat type_ b2;
  Some (RawSt (gps_lnav s) (qzs_lnav s) (zset (prn - 1) b2 (gal_inav s)) (gal_fnav s), r).

(* ---------- Galileo F/NAV ---------- *)
(** 294-360; [svid] is that of the page just received *)
Definition fnav_eph (sat svid : Z) (b : bits) : option (option eph) :=
  do sid1 <- getu b 0 6; do svid1 <- getu b 6 6; do iod1 <- getu b 12 10;
  do sid2 <- getu b 248 6; do iod2 <- getu b (248 + 6) 10;
  do sid3 <- getu b (248*2) 6; do iod3 <- getu b (248*2 + 6) 10;
  do sid4 <- getu b (248*3) 6; do iod4 <- getu b (248*3 + 6) 10;
  if negb (svid =? svid1) || negb (sid1 =? 1) || negb (sid2 =? 2) || negb (sid3 =? 3) || negb (sid4 =? 4) then Some None
  else if negb (iod1 =? iod2) || negb (iod1 =? iod3) || negb (iod1 =? iod4) then Some None
  else
  do toc <- getu b 22 14; do af0 <- gets b 36 31; do af1 <- gets b 67 21; do af2 <- gets b 88 6;
  let i := 94%nat in
  do sisa <- getu b i 8; do ai0 <- gets b (i + 8) 11; do ai1 <- gets b (i + 19) 11; do ai2 <- gets b (i + 30) 14;
  do reg <- getu b (i + 44) 5; do bgda <- gets b (i + 49) 10; do e5ahs <- getu b (i + 59) 2;
  do wn <- getu b (i + 61) 12; do tow <- getu b (i + 73) 20; do e5advs <- getu b (i + 93) 1;
  let i := (248 + 16)%nat in
  do M0 <- gets b i 32; do OMGd <- gets b (i + 32) 24; do e <- getu b (i + 56) 32; do sqrtA <- getu b (i + 88) 32;
  do OMG0 <- gets b (i + 120) 32; do idot <- gets b (i + 152) 14;
  let i := (248*2 + 16)%nat in
  do i0 <- gets b i 32; do omg <- gets b (i + 32) 32; do deln <- gets b (i + 64) 16; do cuc <- gets b (i + 80) 16;
  do cus <- gets b (i + 96) 16; do crc <- gets b (i + 112) 16; do crs <- gets b (i + 128) 16; do toe <- getu b (i + 144) 14;
  let i := (248*3 + 16)%nat in
  do cic <- gets b i 16; do cis <- gets b (i + 16) 16;
  let toc := toc * 60 in
  let week := adj_week wn toc tow in
  Some (Some [
    (Fsat, I sat); (Fweek, I (wn + 1024));
    (FM0, Sc M0 31); (Fdeln, Sc deln 43); (Fe, V e 33); (FA, V (sqrtA * sqrtA) (2 * 19));
    (FOMG0, Sc OMG0 31); (Fi0, Sc i0 31); (Fomg, Sc omg 31); (FOMGd, Sc OMGd 43); (Fidot, Sc idot 43);
    (Fcuc, V cuc 29); (Fcus, V cus 29); (Fcrc, V crc 5); (Fcrs, V crs 5); (Fcic, V cic 29); (Fcis, V cis 29);
    (Ftoes, I (toe * 60)); (Faf0, V af0 34); (Faf1, V af1 46); (Faf2, V af2 59); (Fiode, I iod1); (Fiodc, I iod1);
    (Fsva, H (sisa2sva sisa)); (Fcode, I (Z.lor 2 (Z.shiftl 1 8)));
    (Ftot, T (gst2time 1 wn tow)); (Ftoe, T (gst2time 1 week (toe * 60))); (Ftoc, T (gst2time 1 week toc));
    (Ftgd, V bgda 32); (Ftgdb, V 0 0); (Fsvh, I (Z.lor (Z.shiftl e5ahs 4) (Z.shiftl e5advs 3))); (Fmode, I 1)]).
(** 278-293 *)
Definition decode_gal_fnav (sat : Z) (msg : bits) (s : rawst) : option (rawst * option eph) :=
  let '(_, prn) := sat2prn sat in
  do sid <- getu msg 0 6; do svid <- getu msg 6 6; do iodnav <- getu msg 12 10;
  if sid >? 4 then Some (s, None) else
  do buff <- zget (prn - 1) (gal_fnav s);
  do b <- copybytes 31 msg 0 buff ((sid - 1) * 31);
  do r <- fnav_eph sat svid b;
  Some (RawSt (gps_lnav s) (qzs_lnav s) (gal_inav s) (zset (prn - 1) b (gal_fnav s)), r).

(* ---------- GPS/QZSS LNAV ---------- *)
(** bs.unpack(f32, bs.pack('u8u24', a, b)) for unsigned and signed f32 *)
Definition join32 (a b : Z) : Z := a * 2 ^ 24 + b.
(** 383-473, from the complete buffer *)
Definition lnav_eph (week sat : Z) (b : bits) : option (option eph) :=
  do id1 <- getu b 53 3; do id2 <- getu b (320 + 53) 3; do id3 <- getu b (320*2 + 53) 3;
  if negb (id1 =? 1) || negb (id2 =? 2) || negb (id3 =? 3) then Some None else
  do tow <- getu b (32 + 2) 17; do alert <- getu b (32 + 2 + 17) 1; do asf <- getu b (32 + 2 + 18) 1;
  let tow := tow * 6 in
  let i := (32*2 + 2)%nat in
  do wn <- getu b i 10; do code <- getu b (i + 10) 2; do urai <- getu b (i + 12) 4; do svh <- getu b (i + 16) 6; do iodc_ <- getu b (i + 22) 2;
  do l2p <- getu b (32*3 + 2) 1;
  do tgd <- gets b (32*6 + 2 + 16) 8;
  do iodc <- getu b (32*7 + 2) 8; do toc <- getu b (32*7 + 2 + 8) 16;
  do af2 <- gets b (32*8 + 2) 8; do af1 <- gets b (32*8 + 2 + 8) 16;
  do af0 <- gets b (32*9 + 2) 22;
  let iodc := Z.lor iodc (Z.shiftl iodc_ 8) in
  let i0 := 320%nat in
  do iode <- getu b (i0 + 32*2 + 2) 8; do crs <- gets b (i0 + 32*2 + 2 + 8) 16;
  do deln <- gets b (i0 + 32*3 + 2) 16; do M0_ <- getu b (i0 + 32*3 + 2 + 16) 8;
  do M0 <- getu b (i0 + 32*4 + 2) 24;
  let M0 := sgn 32 (join32 M0_ M0) in
  do cuc <- gets b (i0 + 32*5 + 2) 16; do e_ <- getu b (i0 + 32*5 + 2 + 16) 8;
  do e <- getu b (i0 + 32*6 + 2) 24;
  let e := sgn 32 (join32 e_ e) in
  do cus <- gets b (i0 + 32*7 + 2) 16; do sa_ <- getu b (i0 + 32*7 + 2 + 16) 8;
  do sa <- getu b (i0 + 32*8 + 2) 24;
  let sqrtA := join32 sa_ sa in
  do toe <- getu b (i0 + 32*9 + 2) 16; do fit <- getu b (i0 + 32*9 + 2 + 16) 1; do aodo <- getu b (i0 + 32*9 + 2 + 17) 5;
  let i0 := (320*2)%nat in
  do cic <- gets b (i0 + 32*2 + 2) 16; do OMG0_ <- getu b (i0 + 32*2 + 2 + 16) 8;
  do OMG0 <- getu b (i0 + 32*3 + 2) 24;
  let OMG0 := sgn 32 (join32 OMG0_ OMG0) in
  do cis <- gets b (i0 + 32*4 + 2) 16; do inc0_ <- getu b (i0 + 32*4 + 2 + 16) 8;
  do inc0 <- getu b (i0 + 32*5 + 2) 24;
  let inc0 := sgn 32 (join32 inc0_ inc0) in
  do crc <- gets b (i0 + 32*6 + 2) 16; do omg_ <- getu b (i0 + 32*6 + 2 + 16) 8;
  do omg <- getu b (i0 + 32*7 + 2) 24;
  let omg := sgn 32 (join32 omg_ omg) in
  do OMGd <- gets b (i0 + 32*8 + 2) 24;
  do iode2 <- getu b (i0 + 32*9 + 2) 8; do idot <- gets b (i0 + 32*9 + 2 + 8) 14;
  if negb (iode =? iode2) || negb (iode =? Z.land iodc 255) then Some None else
  do sva <- urai2sva urai;
  let wk := week / 1024 * 1024 + wn in
  let toc := toc * 16 in
  let wk' := adj_week wk toc tow in
  Some (Some [
    (Fsat, I sat); (Fweek, I wk'); (Fl2p, I l2p); (Fcode, I code); (Fsvh, I svh); (Fsva, H (Some sva)); (Ftgd, V tgd 31);
    (Fiodc, I iodc); (Faf2, V af2 55); (Faf1, V af1 43); (Faf0, V af0 31); (Fiode, I iode); (Fcrs, V crs 5);
    (Fdeln, Sc deln 43); (FM0, Sc M0 31); (Fcuc, V cuc 29); (Fe, V e 33); (Fcus, V cus 29);
    (FA, V (sqrtA * sqrtA) (2 * 19)); (Ftoes, I (toe * 16)); (Fcic, V cic 29); (FOMG0, Sc OMG0 31); (Fcis, V cis 29);
    (Fi0, Sc inc0 31); (Fcrc, V crc 5); (Fomg, Sc omg 31); (FOMGd, Sc OMGd 43); (Fidot, Sc idot 43); (Fmode, I 0);
    (Ftot, T (bdt2time 1 wk tow)); (Ftoc, T (gpst2time 1 wk' toc)); (Ftoe, T (gpst2time 1 wk' (toe * 16)))]).
(** 363-382 *)
Definition decode_gps_lnav (week sat : Z) (msg : bits) (s : rawst) : option (rawst * option eph) :=
  let '(sys, prn) := sat2prn sat in
  do pre <- getu msg 2 8;
  if negb (pre =? 139) then Some (s, None) else
  let store buff := do sid <- getu msg 53 3; Some (setslice buff ((sid - 1) * 40) ((sid - 1) * 40 + 40) (head 40 msg)) in
  match sys with
  | GPS => do buff <- zget (prn - 1) (gps_lnav s); do b <- store buff; do r <- lnav_eph week sat b;
           Some (RawSt (zset (prn - 1) b (gps_lnav s)) (qzs_lnav s) (gal_inav s) (gal_fnav s), r)
  | QZS => do buff <- zget (prn - 193) (qzs_lnav s); do b <- store buff; do r <- lnav_eph week sat b;
           Some (RawSt (gps_lnav s) (zset (prn - 193) b (qzs_lnav s)) (gal_inav s) (gal_fnav s), r)
  | _ => Some (s, None)
  end.
