(** What NavIC LNAV, GLONASS FDMA and CDMA, and SBAS message 9 mean, independently of the decoders
    (conventions of RawSpec.v).  A GLONASS number is a sign bit, 1 for negative, and a magnitude: [Sm]. *)
From Verif Require Import SatModel TimeModel TimeSpec CssrState RawModel.
From Verif Require Export Base FieldSpec RawSpec NavSpec GloModel.
Notation length := List.length.
Open Scope Z_scope.

(* ---------- NavIC LNAV ---------- *)
Inductive isub :=
| IA (wn af0 af1 af2 ura toc tgd deln iode r svh cuc cus cic cis crc crs idot : Z)
| IB (M0 toe e sqA OMG0 omg OMGd i0 : Z)
| IX (no body : Z).
Record iframe := IF_ { i_tlm : Z; i_tow : Z; i_flags : Z; i_spare : Z; i_sub : isub; i_tail : Z }.
(** subframes 1, 2, 3, 4 are sent with the numbers 0, 1, 2, 3 *)
Definition ino (s : isub) : Z := match s with IA _ _ _ _ _ _ _ _ _ _ _ _ _ _ _ _ _ _ => 0 | IB _ _ _ _ _ _ _ _ => 1 | IX n _ => n end.
Definition isub_fields (s : isub) : list field :=
  match s with
  | IA wn af0 af1 af2 ura toc tgd deln iode r svh cuc cus cic cis crc crs idot =>
      [(10 # wn); (22 # af0); (16 # af1); (8 # af2); (4 # ura); (16 # toc); (8 # tgd); (22 # deln); (8 # iode); (10 # r); (2 # svh);
       (15 # cuc); (15 # cus); (15 # cic); (15 # cis); (15 # crc); (15 # crs); (14 # idot)]
  | IB M0 toe e sqA OMG0 omg OMGd i0 => [(32 # M0); (16 # toe); (32 # e); (32 # sqA); (32 # OMG0); (32 # omg); (22 # OMGd); (32 # i0)]
  | IX _ body => [(230 # body)]
  end.
Definition iframe_fields (f : iframe) : list field :=
  [(8 # i_tlm f); (17 # i_tow f); (2 # i_flags f); (2 # ino (i_sub f)); (1 # i_spare f)] ++ isub_fields (i_sub f) ++ [(60 # i_tail f)].
Definition isub_ok (s : isub) : Prop :=
  match s with
  | IA wn af0 af1 af2 ura toc tgd deln iode r svh cuc cus cic cis crc crs idot =>
      U 10 wn /\ S_ 22 af0 /\ S_ 16 af1 /\ S_ 8 af2 /\ U 4 ura /\ U 16 toc /\ S_ 8 tgd /\ S_ 22 deln /\ U 8 iode /\ U 2 svh /\
      S_ 15 cuc /\ S_ 15 cus /\ S_ 15 cic /\ S_ 15 cis /\ S_ 15 crc /\ S_ 15 crs /\ S_ 14 idot
  | IB M0 toe e sqA OMG0 omg OMGd i0 => S_ 32 M0 /\ U 16 toe /\ U 32 e /\ U 32 sqA /\ S_ 32 OMG0 /\ S_ 32 omg /\ S_ 22 OMGd /\ S_ 32 i0
  | IX n _ => 2 <= n < 4
  end.
Definition iframe_ok (f : iframe) : Prop := U 17 (i_tow f) /\ isub_ok (i_sub f).
(** the week equal to [wn] modulo 1024 nearest to [week] *)
Definition near_cycle (wn week : Z) : Z := week + 512 - (week + 512 - wn) mod 1024.
(** the ephemeris of consecutive subframes 1 and 2.  [wtoe], [wtot]: from the week, the time of ephemeris and the
    time of transmission, the weeks in which the two times are reported *)
Definition irn_of (sat week : Z) (wtoe wtot : Z -> Z -> Z -> Z) (f : option iframe * option iframe) : option eph :=
  match f with
  | (Some f1, Some f2) =>
    match i_sub f1, i_sub f2 with
    | IA wn af0 af1 af2 ura toc tgd deln iode _ svh cuc cus cic cis crc crs idot, IB M0 toe e sqA OMG0 omg OMGd i0 =>
      if i_tow f2 =? i_tow f1 + 1 then
        let tow := 12 * i_tow f1 in
        let w := near_cycle wn week in
        Some [ (Fsat, I sat); (Fweek, I w); (Faf0, V af0 31); (Faf1, V af1 43); (Faf2, V af2 55); (Furai 0, I ura);
          (Fsva, H (nth_error ura_cm (Z.to_nat ura))); (Ftgd, V tgd 31); (Fdeln, Sc deln 41); (Fiode, I iode); (Fiodc, I iode); (Fsvh, I svh);
          (Fcuc, V cuc 28); (Fcus, V cus 28); (Fcic, V cic 28); (Fcis, V cis 28); (Fcrc, V crc 4); (Fcrs, V crs 4); (Fidot, Sc idot 43);
          (FM0, Sc M0 31); (Ftoes, I (16 * toe)); (Fe, V e 33); (FA, V (sqA ^ 2) 38); (FOMG0, Sc OMG0 31); (Fomg, Sc omg 31); (FOMGd, Sc OMGd 41);
          (Fi0, Sc i0 31); (Ftoc, T (at_week gps0 (wtoe w (16 * toc) tow) (16 * toc))); (Ftoe, T (at_week gps0 (wtoe w (16 * toe) tow) (16 * toe)));
          (Ftot, T (at_week gps0 (wtot week (16 * toe) tow) tow)); (Fmode, I 0)]
      else None
    | _, _ => None
    end
  | _ => None
  end.
(** a subframe received from a satellite in a week *)
Record iev := IE { ie_prn : Z; ie_week : Z; ie_frame : iframe; ie_rest : bits }.
Definition iev_ok (e : iev) : Prop := 1 <= ie_prn e <= 14 /\ iframe_ok (ie_frame e).
Definition ifeed (e : iev) (d : dict Z bits) : option (dict Z bits * option eph) :=
  decode_irn_lnav (ie_week e) (prn2sat IRN (ie_prn e)) (enc (iframe_fields (ie_frame e)) ++ ie_rest e) d.
Definition ifeeds (h : list iev) (d : dict Z bits) : option (dict Z bits) := mfold (fun e d => do r <- ifeed e d; Some (fst r)) h d.
Definition iwant (prn k : Z) (e : iev) : option iframe := if (ie_prn e =? prn) && (ino (i_sub (ie_frame e)) =? k) then Some (ie_frame e) else None.

(* ---------- GLONASS FDMA ---------- *)
Record smag := Sm { neg : Z; mag : Z }.
Definition smv (x : smag) : Z := match neg x with 1 => - mag x | _ => mag x end.
Definition sm_ok (n : Z) (x : smag) : Prop := U 1 (neg x) /\ U (n - 1) (mag x).
Definition smf (n : nat) (x : smag) : list field := [(1 # neg x); ((n - 1)%nat # mag x)].
Inductive gstr :=
| G1 (r f1 tkh tkm tks : Z) (v a p : smag)
| G2 (Bn f2 tb r : Z) (v a p : smag)
| G3 (f3 : Z) (gamn : smag) (r f0 ln : Z) (v a p : smag)
| G4 (taun dtaun : smag) (En r f4 FT r2 NT slot M : Z)
| G5 (NA : Z) (tauc : smag) (r N4 : Z) (taugps : smag) (ln : Z)
| Gx (no body : Z).
Definition gno (s : gstr) : Z := match s with G1 _ _ _ _ _ _ _ _ => 1 | G2 _ _ _ _ _ _ _ => 2 | G3 _ _ _ _ _ _ _ _ => 3 | G4 _ _ _ _ _ _ _ _ _ _ => 4
  | G5 _ _ _ _ _ _ => 5 | Gx n _ => n end.
Definition gstr_fields (s : gstr) : list field :=
  match s with
  | G1 r f1 tkh tkm tks v a p => [(2 # r); (2 # f1); (5 # tkh); (6 # tkm); (1 # tks)] ++ smf 24 v ++ smf 5 a ++ smf 27 p
  | G2 Bn f2 tb r v a p => [(3 # Bn); (1 # f2); (7 # tb); (5 # r)] ++ smf 24 v ++ smf 5 a ++ smf 27 p
  | G3 f3 gamn r f0 ln v a p => [(1 # f3)] ++ smf 11 gamn ++ [(1 # r); (2 # f0); (1 # ln)] ++ smf 24 v ++ smf 5 a ++ smf 27 p
  | G4 taun dtaun En r f4 FT r2 NT slot M =>
      smf 22 taun ++ smf 5 dtaun ++ [(5 # En); (14 # r); (1 # f4); (4 # FT); (3 # r2); (11 # NT); (5 # slot); (2 # M)]
  | G5 NA tauc r N4 taugps ln => [(11 # NA)] ++ smf 32 tauc ++ [(1 # r); (5 # N4)] ++ smf 22 taugps ++ [(1 # ln)]
  | Gx _ body => [(72 # body)]
  end.
(** a string: idle bit, number, 72 data bits, check bits and padding *)
Record gstring := GS { g_idle : Z; g_str : gstr; g_check : Z }.
Definition gstring_fields (s : gstring) : list field := [(1 # g_idle s); (4 # gno (g_str s))] ++ gstr_fields (g_str s) ++ [(19 # g_check s)].
Definition vap_ok (v a p : smag) : Prop := sm_ok 24 v /\ sm_ok 5 a /\ sm_ok 27 p.
(** [tk] within the day (hours, minutes, half minutes), [tb] in quarters of an hour *)
Definition gstr_ok (s : gstr) : Prop :=
  match s with
  | G1 r f1 tkh tkm tks v a p => U 2 f1 /\ 0 <= tkh < 24 /\ 0 <= tkm < 60 /\ U 1 tks /\ vap_ok v a p
  | G2 Bn f2 tb r v a p => U 3 Bn /\ U 1 f2 /\ 0 <= tb < 96 /\ vap_ok v a p
  | G3 f3 gamn r f0 ln v a p => U 1 f3 /\ sm_ok 11 gamn /\ U 2 f0 /\ vap_ok v a p
  | G4 taun dtaun En r f4 FT r2 NT slot M => sm_ok 22 taun /\ sm_ok 5 dtaun /\ U 5 En /\ U 1 f4 /\ U 4 FT /\ U 2 M
  | G5 NA tauc r N4 taugps ln => sm_ok 32 tauc /\ sm_ok 22 taugps
  | Gx n _ => n = 0 \/ 6 <= n < 16
  end.
(** metres, metres per second and per second squared from kilometres *)
Definition km (x : smag) (n : Z) : val := V (1000 * smv x) n.
(** the ephemeris of strings 1 to 4 received at intervals of two seconds, and of string 5 if there was one;
    [tof], [toe]: UTC seconds since 1970 of the two times, [day]: of the start of the day *)
Definition utc (u : Z) : gtime := GT (u + leap_count 1 u) 0.
Definition fdma_of (sat freq day : Z) (tof : Z -> Z) (f : option (gstring * Z) * option (gstring * Z) * option (gstring * Z) * option (gstring * Z) * option (gstring * Z))
    : option geph :=
  match f with
  | (Some (s1, t1), Some (s2, t2), Some (s3, t3), Some (s4, t4), q5) =>
    match g_str s1, g_str s2, g_str s3, g_str s4 with
    | G1 _ f1 tkh tkm tks vx ax px, G2 Bn f2 tb _ vy ay py, G3 f3 gamn _ f0 _ vz az pz, G4 taun dtaun En _ f4 FT _ _ _ M =>
      if (t2 =? t1 + 2) && (t3 =? t1 + 4) && (t4 =? t1 + 6) then
        Some ([ (Gsat, I sat); (Gvel 0, km vx 20); (Gacc 0, km ax 30); (Gpos 0, km px 11); (Gvel 1, km vy 20); (Gacc 1, km ay 30); (Gpos 1, km py 11);
            (Ggamn, V (smv gamn) 40); (Gvel 2, km vz 20); (Gacc 2, km az 30); (Gpos 2, km pz 11); (Gtaun, V (smv taun) 30); (Gdtaun, V (smv dtaun) 30)]
          ++ match q5 with Some (s5, _) => match g_str s5 with G5 _ tauc _ _ taugps _ => [(Gtauc, V (smv tauc) 31); (Gtaugps, V (smv taugps) 30)] | _ => [] end | None => [] end
          ++ [ (Gsvh, I Bn); (Gage, I En); (Gsva, I FT); (Gfrq, I freq); (Giode, I tb);
            (Gflag, I (128 * M + 64 * f4 + 32 * f3 + 16 * f2 + 4 * f1 + f0));
            (Gtof, T (utc (tof (3600 * tkh + 60 * tkm + 30 * tks - 10800)))); (Gtoe, T (utc (tof (900 * tb - 10800))));
            (Gtoes, I (tof (900 * tb - 10800) - day)); (Gmode, I 0)])
      else None
    | _, _, _, _ => None
    end
  | _ => None
  end.
(** a string received from a satellite of some frequency channel at a second of a GPS week *)
Record fev := FE { fe_prn : Z; fe_week : Z; fe_time : Z; fe_freq : Z; fe_str : gstring; fe_rest : bits }.
Definition fev_ok (e : fev) : Prop := 1 <= fe_prn e <= 32 /\ 0 <= fe_time e < 604800 /\ gstr_ok (g_str (fe_str e)).
Definition ffeed (e : fev) (d : dict Z bits) : option (dict Z bits * option geph) :=
  decode_glo_fdma (fe_week e) (fe_time e) (prn2sat GLO (fe_prn e)) (fe_freq e) (enc (gstring_fields (fe_str e)) ++ fe_rest e) d.
Definition ffeeds (h : list fev) (d : dict Z bits) : option (dict Z bits) := mfold (fun e d => do r <- ffeed e d; Some (fst r)) h d.
Definition fwant (prn k : Z) (e : fev) : option (gstring * Z) :=
  if (fe_prn e =? prn) && (gno (g_str (fe_str e)) =? k) then Some (fe_str e, fe_time e) else None.

(* ---------- GLONASS CDMA ---------- *)
(** service field, in the order of L1OC or L3OC; [s_ts] counts intervals of 2 or 3 seconds from midnight *)
Inductive band := L1 | L3.
Record serv := SV { s_id : Z; s_svh : Z; s_valid : Z; s_P1 : Z; s_P2 : Z; s_KP : Z; s_A : Z; s_ts : Z }.
Definition serv_fields (x : band) (s : serv) : list field :=
  match x with
  | L1 => [(6 # s_id s); (1 # s_svh s); (1 # s_valid s); (4 # s_P1 s); (1 # s_P2 s); (2 # s_KP s); (1 # s_A s); (16 # s_ts s)]
  | L3 => [(15 # s_ts s); (6 # s_id s); (1 # s_svh s); (1 # s_valid s); (4 # s_P1 s); (1 # s_P2 s); (2 # s_KP s); (1 # s_A s)]
  end.
Definition tick (x : band) : Z := match x with L1 => 2 | L3 => 3 end.
Definition serv_ok (x : band) (s : serv) : Prop := U 1 (s_svh s) /\ U 1 (s_valid s) /\ U 1 (s_P2 s) /\ 0 <= s_ts s /\ tick x * s_ts s < 86400.
Inductive kbody :=
| K10 (N4 Nt M PS tb Ee Et Re Rt : Z) (ue ut taun gamn beta tauc dtauc : smag)
| K11 (px py pz vx vy : smag)
| K12 (vz ax ay az dx dy dz isc taugps : smag)
| K16 (tin psi sn wmax win dw tau1 tau2 : Z)
| Kx (no body : Z).
Definition kno (b : kbody) : Z := match b with K10 _ _ _ _ _ _ _ _ _ _ _ _ _ _ _ _ => 10 | K11 _ _ _ _ _ => 11 | K12 _ _ _ _ _ _ _ _ _ => 12
  | K16 _ _ _ _ _ _ _ _ => 16 | Kx n _ => n end.
Definition kbody_fields (b : kbody) : list field :=
  match b with
  | K10 N4 Nt M PS tb Ee Et Re Rt ue ut taun gamn beta tauc dtauc =>
      [(5 # N4); (11 # Nt); (3 # M); (6 # PS); (10 # tb); (8 # Ee); (8 # Et); (2 # Re); (2 # Rt)] ++ smf 5 ue ++ smf 5 ut ++ smf 32 taun ++
      smf 19 gamn ++ smf 15 beta ++ smf 40 tauc ++ smf 13 dtauc
  | K11 px py pz vx vy => smf 40 px ++ smf 40 py ++ smf 40 pz ++ smf 35 vx ++ smf 35 vy
  | K12 vz ax ay az dx dy dz isc taugps =>
      smf 35 vz ++ smf 15 ax ++ smf 15 ay ++ smf 15 az ++ smf 13 dx ++ smf 13 dy ++ smf 13 dz ++ smf 18 isc ++ smf 30 taugps
  | K16 tin psi sn wmax win dw tau1 tau2 =>
      [(22 # tin); (15 # psi); (1 # sn); (17 # wmax); (17 # win); (15 # dw); (13 # tau1); (17 # tau2)]
  | Kx _ body => [(184 # body)]
  end.
Definition kbody_ok (b : kbody) : Prop :=
  match b with
  | K10 N4 Nt M PS tb Ee Et Re Rt ue ut taun gamn beta tauc dtauc =>
      (1 <= N4 <= 26 /\ 1 <= Nt <= 1461 /\ U 3 M /\ 0 <= tb < 960 /\ U 8 Ee /\ U 8 Et /\ U 2 Re /\ U 2 Rt) /\
      (sm_ok 5 ue /\ sm_ok 5 ut /\ sm_ok 32 taun /\ sm_ok 19 gamn /\ sm_ok 15 beta /\ sm_ok 40 tauc /\ sm_ok 13 dtauc)
  | K11 px py pz vx vy => sm_ok 40 px /\ sm_ok 40 py /\ sm_ok 40 pz /\ sm_ok 35 vx /\ sm_ok 35 vy
  | K12 vz ax ay az dx dy dz isc taugps =>
      sm_ok 35 vz /\ sm_ok 15 ax /\ sm_ok 15 ay /\ sm_ok 15 az /\ sm_ok 13 dx /\ sm_ok 13 dy /\ sm_ok 13 dz /\ sm_ok 18 isc /\ sm_ok 30 taugps
  | K16 tin psi sn wmax win dw tau1 tau2 => U 22 tin /\ U 15 psi /\ U 1 sn /\ U 17 wmax /\ U 17 win /\ U 15 dw /\ U 13 tau1 /\ U 17 tau2
  | Kx n _ => 0 <= n < 64 /\ n <> 10 /\ n <> 11 /\ n <> 12 /\ n <> 16
  end.
(** a message: the 12 bits 0x5f1 or the 20 bits 0x0494e, type, service field, body, whatever follows *)
Record kmsg := KM { k_serv : serv; k_body : kbody }.
Definition kmsg_fields (x : band) (m : kmsg) : list field := [(6 # kno (k_body m))] ++ serv_fields x (k_serv m) ++ kbody_fields (k_body m).
Definition kmsg_ok (x : band) (m : kmsg) : Prop := serv_ok x (k_serv m) /\ kbody_ok (k_body m).
Definition pre_fields (x : band) : list field := match x with L1 => [(12 # 1521)] | L3 => [(20 # 18766)] end.
(** a time of day of Moscow of day [Nt] of the [N4]-th four years since 1996, as GPS time *)
Definition moscow (N4 Nt sod : Z) : gtime := utc (86400 * (day_number (1996 + 4 * (N4 - 1)) 1 1 + Nt - 1) - 10800 + sod).
(** the ephemeris of messages 10, 11, 12 and, if there was one, 16; [vy]: the velocity reported along the second axis *)
Definition turn_of (m : option kmsg) : geph :=
  let '(tin, psi, sn, wmax, win, dw, tau1, tau2) :=
    match m with
    | Some m => match k_body m with K16 a b c d e f g h => (a, b, c, d, e, f, g, h) | _ => (0, 0, 0, 0, 0, 0, 0, 0) end
    | None => (0, 0, 0, 0, 0, 0, 0, 0) end in
  [(Gpsi, Sc psi 14); (Gwin, Sc win 26); (Gwmax, Sc wmax 26); (Gdw, Sc dw 30); (Gsn, I sn); (Gtin, V tin 5); (Gtau1, V tau1 5); (Gtau2, V tau2 5)].
Definition cdma_of (x : band) (sat : Z) (vy2 : smag -> Z) (f : option kmsg * option kmsg * option kmsg * option kmsg) : option geph :=
  match f with
  | (Some m10, Some m11, Some m12, m16) =>
    match k_body m10, k_body m11, k_body m12 with
    | K10 N4 Nt M _ tb Ee Et Re Rt ue ut taun gamn beta tauc dtauc, K11 px py pz vx vy, K12 vz ax ay az dx dy dz isc taugps =>
      let s := k_serv m10 in
      let toe := moscow N4 Nt (90 * tb) in
      Some ([ (Gsat, I sat); (Gurai 0, I (smv ue)); (Gurai 1, I (smv ut)); (Gtaun, V (smv taun) 38); (Ggamn, V (smv gamn) 48); (Gbeta, V (smv beta) 57);
          (Gtauc, V (smv tauc) 31); (Gdtauc, V (smv dtauc) 49); (Gpos 0, km px 20); (Gpos 1, km py 20); (Gpos 2, km pz 20);
          (Gvel 0, km vx 30); (Gvel 1, V (1000 * vy2 vy) 30); (Gvel 2, km vz 30); (Gacc 0, km ax 39); (Gacc 1, km ay 39); (Gacc 2, km az 39);
          (Gdpos 0, V (smv dx) 10); (Gdpos 1, V (smv dy) 10); (Gdpos 2, V (smv dz) 10);
          (Gisc (match x with L1 => 1 | L3 => 2 end), V (smv isc) 38); (Gtaugps, V (smv taugps) 38)]
        ++ turn_of m16
        ++ [ (Gsattype, I M); (Gsvh, I (s_svh s)); (Gstatus, I (s_valid s)); (Gflag, I (s_P2 s)); (Gsrc, I (4 * Re + Rt)); (Gaode, V Ee 2); (Gaodc, V Et 2);
          (Gtoe, T toe); (Gtoes, I ((gt toe - 86400 * gps0) mod 604800)); (Gtof, T (moscow N4 Nt (tick x * s_ts s))); (Giode, I tb);
          (Gmode, I (match x with L1 => 1 | L3 => 3 end))])
    | _, _, _ => None
    end
  | _ => None
  end.
Record kev := KE { ke_prn : Z; ke_msg : kmsg; ke_rest : bits }.
(** long enough for what is copied: 234 bits of L1OC, 276 bits of L3OC *)
Definition kev_bits (x : band) (e : kev) : bits := enc (pre_fields x ++ kmsg_fields x (ke_msg e)) ++ ke_rest e.
Definition kev_ok (x : band) (e : kev) : Prop :=
  1 <= ke_prn e <= 32 /\ kmsg_ok x (ke_msg e) /\ (match x with L1 => 234 | L3 => 276 end <= length (kev_bits x e))%nat.
Definition kfeed (x : band) (e : kev) (d : dict Z bits) : option (dict Z bits * option geph) :=
  match x with L1 => decode_glo_l1oc | L3 => decode_glo_l3oc end (prn2sat GLO (ke_prn e)) (kev_bits x e) d.
Definition kfeeds (x : band) (h : list kev) (d : dict Z bits) : option (dict Z bits) := mfold (fun e d => do r <- kfeed x e d; Some (fst r)) h d.
Definition kwant (prn k : Z) (e : kev) : option kmsg := if (ke_prn e =? prn) && (kno (k_body (ke_msg e)) =? k) then Some (ke_msg e) else None.

(* ---------- SBAS ---------- *)
Record sgeo := SGEO { n_pre : Z; n_iodn : Z; n_t0 : Z; n_ura : Z; n_x : Z; n_y : Z; n_z : Z; n_vx : Z; n_vy : Z; n_vz : Z; n_ax : Z; n_ay : Z; n_az : Z;
  n_af0 : Z; n_af1 : Z }.
Definition sgeo_fields (f : sgeo) : list field :=
  [(8 # n_pre f); (6 # 9); (8 # n_iodn f); (13 # n_t0 f); (4 # n_ura f); (30 # n_x f); (30 # n_y f); (25 # n_z f); (17 # n_vx f); (17 # n_vy f); (18 # n_vz f);
   (10 # n_ax f); (10 # n_ay f); (10 # n_az f); (12 # n_af0 f); (8 # n_af1 f)].
Definition sgeo_ok (f : sgeo) : Prop :=
  (n_pre f = 83 \/ n_pre f = 154 \/ n_pre f = 198) /\ (U 8 (n_iodn f) /\ 0 <= n_t0 f < 5400 /\ U 4 (n_ura f)) /\
  (S_ 30 (n_x f) /\ S_ 30 (n_y f) /\ S_ 25 (n_z f) /\ S_ 17 (n_vx f) /\ S_ 17 (n_vy f) /\ S_ 18 (n_vz f) /\
   S_ 10 (n_ax f) /\ S_ 10 (n_ay f) /\ S_ 10 (n_az f) /\ S_ 12 (n_af0 f) /\ S_ 8 (n_af1 f)).
(** accuracy in tenths of a metre; 15: do not use *)
Definition sgeo_ura (u : Z) : Z :=
  match u with 0 => 20 | 1 => 28 | 2 => 40 | 3 => 57 | 4 => 80 | 5 => 113 | 15 => 0 | _ => 10 * 2 ^ (u - 2) end.
(** [t0]: seconds since 1970 of the reference time *)
Definition sgeo_of (sat : Z) (tof t0 : Z) (f : sgeo) : geph :=
  [ (Gsat, I sat); (Gtof, T (GT tof 0)); (Gt0, T (GT t0 0)); (Giodn, I (n_iodn f)); (Gsvh, I (if n_ura f =? 15 then 1 else 0));
    (Gsva, D (sgeo_ura (n_ura f)) 1); (Gmode, I 0); (Gpos 0, D (8 * n_x f) 2); (Gpos 1, D (8 * n_y f) 2); (Gpos 2, D (4 * n_z f) 1);
    (Gvel 0, D (625 * n_vx f) 6); (Gvel 1, D (625 * n_vy f) 6); (Gvel 2, D (4 * n_vz f) 3);
    (Gacc 0, D (125 * n_ax f) 7); (Gacc 1, D (125 * n_ay f) 7); (Gacc 2, D (625 * n_az f) 7); (Gaf0, V (n_af0 f) 31); (Gaf1, V (n_af1 f) 40)].
