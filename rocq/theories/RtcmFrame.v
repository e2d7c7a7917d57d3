(** RTCM 3 transport frames and message numbers: /repo/src/cssrlib/rtcm.py:297-494, 726-777,
    968-986, 3946-4134, 4174-4191, 4919-4971.

    A buffer is the list of its bits; byte [k] starts at bit [8 * k].  Offsets and lengths are
    natural numbers (a negative Python index is outside the model).  [None] is an exception
    (IndexError, struct.error, KeyError, UnboundLocalError). *)
From Verif Require Export SatModel Base.
Open Scope Z_scope.

(* ---------- checksum ---------- *)
(** Crc24LteA.calc of package crccheck (imported at rtcm.py:25; external, its parameters are
    taken from its name: 24 bits, generator 0x864cfb, initial value 0, no reflection, no final
    exclusive or), bit by bit. *)
Definition crc_step (r : Z) (b : bool) : Z :=
  Z.lxor (Z.land (Z.shiftl r 1) 0xffffff) (if xorb (Z.testbit r 23) b then 0x864cfb else 0).
Definition crc24 (l : bits) : Z := fold_left crc_step l 0.

(** rtcm.py:968-970 sync *)
Definition sync (buff : bits) (k : nat) : option bool :=
  do b <- getu buff (8 * k) 8; Some (b =? 0xd3).

(** rtcm.py:972-986 checksum; the second component is the value assigned to [self.len]
    ([None]: not assigned).  [mon] = (self.monlevel > 0): only then the message number is
    unpacked for the diagnostic. *)
Definition checksum (mon : bool) (msg : bits) (k maxlen : nat) : option (bool * option nat) :=
  do h <- getu msg (8 * (k + 1)) 16;
  let len := Z.to_nat (Z.land h 0x3ff) in
  if (len <? 6)%nat then Some (false, None)
  else if (0 <? maxlen)%nat && (maxlen <=? k + len)%nat then Some (false, None)
  else
    let cs := crc24 (slice msg (8 * k) (8 * (len + 6))) in
    do _ <- (if mon && negb (cs =? 0) then getu msg (8 * (k + 3)) 16 else Some 0);
    Some (cs =? 0, Some len).

(** rtcm.py:4174-4175 set_sync *)
Definition set_sync (msg : bits) (k : nat) : option bits := putu msg (8 * k) 8 0xd3.
(** rtcm.py:4177-4181 set_len; [self.len] = [len] is an argument of [set_checksum] below *)
Definition set_len (msg : bits) (k len : nat) : option bits :=
  putu msg (8 * (k + 1)) 16 (Z.land (Z.of_nat len) 0x3ff).
(** rtcm.py:4183-4191 set_checksum; result [None] inside = it returned False *)
Definition set_checksum (len : nat) (msg : bits) (k maxlen : nat) : option (bits * option Z) :=
  if (len <? 6)%nat then Some (msg, None)
  else if (0 <? maxlen)%nat && (maxlen <=? k + len)%nat then Some (msg, None)
  else
    let cs := crc24 (slice msg (8 * k) (8 * (len + 3))) in
    do m1 <- putu msg (8 * (k + len + 3)) 16 (Z.shiftr cs 8);
    do m2 <- putu m1 (8 * (k + len + 5)) 8 (Z.land cs 0xff);
    Some (m2, Some cs).

(** completing a frame: preamble, length, checksum, in the order in which rtcm.py:4174-4191 defines
    them (the package itself contains no caller) *)
Definition frame (msg : bits) (k len maxlen : nat) : option (bits * option Z) :=
  do m1 <- set_sync msg k;
  do m2 <- set_len m1 k len;
  set_checksum len m2 k maxlen.

(* ---------- message numbers ---------- *)
(** sCType members used in the tables *)
Inductive sct := SORB | SCLK | SCB | SOC | SURA | SHCLK | SVTEC | SPB | SMETA | SGRID | SANT | SPBX | STROP | SSTEC.
Definition sct_eqb (a b : sct) : bool :=
  match a, b with
  | SORB, SORB | SCLK, SCLK | SCB, SCB | SOC, SOC | SURA, SURA | SHCLK, SHCLK | SVTEC, SVTEC | SPB, SPB
  | SMETA, SMETA | SGRID, SGRID | SANT, SANT | SPBX, SPBX | STROP, STROP | SSTEC, SSTEC => true
  | _, _ => false
  end.

(** rtcm.py:300-308 *)
Definition msm_t : list (gnss * Z) :=
  [(GPS, 1071); (GLO, 1081); (GAL, 1091); (SBS, 1101); (QZS, 1111); (BDS, 1121)].
Definition ssr_t : list (gnss * Z) :=
  [(GPS, 1057); (GLO, 1063); (GAL, 1240); (QZS, 1246); (SBS, 1252); (BDS, 1258)].
(** rtcm.py:325-398, in the order of the source *)
Definition ssrtype_t : list (Z * (gnss * sct)) :=
  [(1057, (GPS, SORB)); (1058, (GPS, SCLK)); (1059, (GPS, SCB)); (1060, (GPS, SOC)); (1061, (GPS, SURA)); (1062, (GPS, SHCLK));
   (1063, (GLO, SORB)); (1064, (GLO, SCLK)); (1065, (GLO, SCB)); (1066, (GLO, SOC)); (1067, (GLO, SURA)); (1068, (GLO, SHCLK));
   (1240, (GAL, SORB)); (1241, (GAL, SCLK)); (1242, (GAL, SCB)); (1243, (GAL, SOC)); (1244, (GAL, SURA)); (1245, (GAL, SHCLK));
   (1264, (NONE, SVTEC));
   (1265, (GPS, SPB)); (1266, (GLO, SPB)); (1267, (GAL, SPB)); (1268, (QZS, SPB)); (1269, (SBS, SPB)); (1270, (BDS, SPB));
   (41, (GLO, SORB)); (42, (GLO, SCLK)); (43, (GLO, SCB)); (44, (GLO, SOC)); (45, (GLO, SURA)); (46, (GLO, SHCLK));
   (60, (NONE, SMETA)); (61, (NONE, SGRID));
   (62, (GAL, SORB)); (63, (BDS, SORB)); (64, (QZS, SORB));
   (65, (GAL, SCLK)); (66, (BDS, SCLK)); (67, (QZS, SCLK));
   (68, (GAL, SCB)); (69, (BDS, SCB)); (70, (QZS, SCB));
   (71, (GAL, SOC)); (72, (BDS, SOC)); (73, (QZS, SOC));
   (74, (GAL, SURA)); (75, (BDS, SURA)); (76, (QZS, SURA));
   (77, (GAL, SHCLK)); (78, (BDS, SHCLK)); (79, (QZS, SHCLK));
   (80, (GPS, SANT)); (81, (GLO, SANT)); (82, (GAL, SANT)); (83, (BDS, SANT)); (84, (QZS, SANT));
   (85, (GPS, SPB)); (86, (GLO, SPB)); (87, (GAL, SPB)); (88, (BDS, SPB)); (89, (QZS, SPB));
   (90, (GPS, SPBX)); (91, (GLO, SPBX)); (92, (GAL, SPBX)); (93, (BDS, SPBX)); (94, (QZS, SPBX));
   (95, (NONE, STROP));
   (96, (GPS, SSTEC)); (97, (GLO, SSTEC)); (98, (GAL, SSTEC)); (99, (BDS, SSTEC)); (100, (QZS, SSTEC))].

(** rtcm.py:427-429 mt2sct; KeyError = [None] *)
Definition mt2sct (mt : Z) : option (gnss * sct) :=
  option_map snd (find (fun e => fst e =? mt) ssrtype_t).
(** rtcm.py:431-436 sct2mt *)
Definition sct2mt (c : sct) (sys : gnss) : Z :=
  match find (fun e => gnss_eqb (fst (snd e)) sys && sct_eqb (snd (snd e)) c) ssrtype_t with
  | Some e => fst e
  | None => -1
  end.

Definition zin (x : Z) (l : list Z) : bool := existsb (Z.eqb x) l.
Definition zassoc {A} (l : list (Z * A)) (x : Z) : option A :=
  option_map snd (find (fun e => fst e =? x) l).
Definition btw (a mt b : Z) : bool := (a <=? mt) && (mt <? b).

(** rtcm.py:438-494 get_ssr_sys; [ref] = self.sysref ([None] = its initial value -1).  The final
    [return tbl_t[msgtype]] raises UnboundLocalError for an unknown number. *)
Definition get_ssr_sys (ref : option gnss) (mt : Z) : option gnss :=
  if mt =? 4076 then match ref with Some s => Some s | None => Some NONE end
  else if btw 1057 mt 1063 then Some GPS
  else if btw 1063 mt 1069 then Some GLO
  else if btw 1240 mt 1246 then Some GAL
  else if btw 1246 mt 1252 then Some QZS
  else if btw 1252 mt 1258 then Some SBS
  else if btw 1258 mt 1264 then Some BDS
  else if mt =? 1264 then Some NONE
  else if btw 1265 mt 1271 then
    zassoc [(1265, GPS); (1266, GLO); (1267, GAL); (1268, QZS); (1269, SBS); (1270, BDS)] mt
  else if btw 41 mt 47 then Some GLO
  else if zin mt [62; 65; 68; 71; 74; 77] then Some GAL
  else if zin mt [63; 66; 69; 72; 75; 78] then Some BDS
  else if zin mt [64; 67; 70; 73; 76; 79] then Some QZS
  else if btw 80 mt 85 then zassoc [(80, GPS); (81, GLO); (82, GAL); (83, BDS); (84, QZS)] mt
  else if btw 85 mt 90 then zassoc [(85, GPS); (86, GLO); (87, GAL); (88, BDS); (89, QZS)] mt
  else if btw 90 mt 95 then zassoc [(90, GPS); (91, GLO); (92, GAL); (93, BDS); (94, QZS)] mt
  else if btw 96 mt 101 then zassoc [(96, GPS); (97, GLO); (98, GAL); (99, BDS); (100, QZS)] mt
  else if zin mt [60; 61; 95] then Some NONE
  else if zin mt [11; 12; 13] then Some NONE
  else None.

(** rtcm.py:726-735 is_ssrtype(msgtype, tstmsg=False) *)
Definition is_ssrtype (mt : Z) (tst : bool) : bool :=
  existsb (fun e => (snd e <=? mt) && (mt <=? snd e + 6)
                    || (1264 <=? mt) && (mt <=? 1270)
                    || tst && (60 <=? mt) && (mt <=? 100)) ssr_t.
(** rtcm.py:737-742 is_msmtype *)
Definition is_msmtype (mt : Z) : bool :=
  existsb (fun e => (snd e <=? mt) && (mt <=? snd e + 6)) msm_t.
(** rtcm.py:744-753 msmtype *)
Definition msmtype (mt : Z) : gnss * Z :=
  match find (fun e => (snd e <=? mt) && (mt <=? snd e + 6)) msm_t with
  | Some e => (fst e, mt - snd e + 1)
  | None => (NONE, 0)
  end.
(** rtcm.py:755-766 nrtktype *)
Definition nrtktype (mt : Z) : gnss * Z :=
  match zassoc [(1030, GPS); (1031, GLO); (1303, BDS); (1304, GAL); (1305, QZS)] mt with
  | Some s => (s, 1)
  | None => (NONE, 0)
  end.
(** rtcm.py:768-777 ssrtype *)
Definition ssrtype (mt : Z) : gnss * Z :=
  match find (fun e => (snd e <=? mt) && (mt <? snd e + 6)) ssr_t with
  | Some e => (fst e, mt - snd e + 1)
  | None => (NONE, 0)
  end.

(** The branch taken by decode (rtcm.py:3982-4128) and by encode (rtcm.py:4919-4971) for a message
    number.  [KSsr c]: the SSR decoder or encoder for correction type [c]; [KOther]: the branches
    whose constellation does not depend on the number. *)
Inductive kind := KSsr (c : sct) | KIgs | KNrtk | KMsm | KEph (s : gnss) | KOther | KNone.
Definition dispatch (mt : Z) : kind :=
  if zin mt [1057; 1063; 1240; 1246; 1252; 1258] then KSsr SORB
  else if zin mt [1058; 1064; 1241; 1247; 1253; 1259] then KSsr SCLK
  else if zin mt [1059; 1065; 1242; 1248; 1254; 1260] then KSsr SCB
  else if zin mt [1265; 1266; 1267; 1268; 1269; 1270] then KSsr SPB
  else if zin mt [1060; 1066; 1243; 1249; 1255; 1261] then KSsr SOC
  else if zin mt [1061; 1067; 1244; 1250; 1256; 1262] then KSsr SURA
  else if zin mt [1062; 1068; 1245; 1251; 1257; 1263] then KSsr SHCLK
  else if mt =? 4076 then KIgs
  else if zin mt [1030; 1031; 1303; 1304; 1305] then KNrtk
  else if is_msmtype mt then KMsm
  else if zin mt [1007; 1008; 1033] then KOther
  else if zin mt [1005; 1006; 1032] then KOther
  else if mt =? 1230 then KOther
  else if mt =? 1019 then KEph GPS
  else if mt =? 1020 then KEph GLO
  else if mt =? 1041 then KEph IRN
  else if (mt =? 1042) || (mt =? 63) then KEph BDS
  else if mt =? 1043 then KEph SBS
  else if mt =? 1044 then KEph QZS
  else if (mt =? 1045) || (mt =? 1046) then KEph GAL
  else if mt =? 1029 then KOther
  else if mt =? 60 then KSsr SMETA
  else if mt =? 61 then KSsr SGRID
  else if zin mt [1057; 41; 62; 63; 64] then KSsr SORB
  else if zin mt [1058; 42; 65; 66; 67] then KSsr SCLK
  else if zin mt [1060; 44; 71; 72; 73] then KSsr SOC
  else if zin mt [1061; 45; 74; 75; 76] then KSsr SURA
  else if zin mt [1062; 46; 77; 78; 79] then KSsr SHCLK
  else if zin mt [1059; 43; 68; 69; 70] then KSsr SCB
  else if btw 80 mt 85 then KSsr SANT
  else if btw 85 mt 90 then KSsr SPB
  else if btw 90 mt 95 then KSsr SPBX
  else if mt =? 95 then KSsr STROP
  else if btw 96 mt 101 then KSsr SSTEC
  else if zin mt [3; 2000; 4; 2005; 5; 2006; 6; 2007; 2008; 7; 2051; 8; 2091; 2071; 2072; 11; 2011; 12; 13; 54] then KOther
  else KNone.
Definition edispatch (mt : Z) : kind :=
  if is_msmtype mt then KMsm
  else if zin mt [11; 12; 13] then KOther
  else if mt =? 60 then KSsr SMETA
  else if mt =? 61 then KSsr SGRID
  else if zin mt [1057; 41; 62; 63; 64] then KSsr SORB
  else if zin mt [1058; 42; 65; 66; 67] then KSsr SCLK
  else if zin mt [1060; 44; 71; 72; 73] then KSsr SOC
  else if zin mt [1061; 45; 74; 75; 76] then KSsr SURA
  else if zin mt [1062; 46; 77; 78; 79] then KSsr SHCLK
  else if zin mt [1059; 43; 68; 69; 70] then KSsr SCB
  else if btw 80 mt 85 then KNone
  else if btw 85 mt 90 then KSsr SPB
  else if btw 90 mt 95 then KNone
  else if mt =? 95 then KSsr STROP
  else if btw 96 mt 101 then KSsr SSTEC
  else KNone.
