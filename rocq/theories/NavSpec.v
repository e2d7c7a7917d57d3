(** What CNAV, CNAV-2, B-CNAV, D1 and D2 frames mean, independently of the decoders (conventions of RawSpec.v:
    a frame is the list of its fields, a field sent in parts is listed by its parts). *)
From Verif Require Import SatModel TimeModel TimeSpec CssrState RawModel.
From Verif Require Export Base FieldSpec RawSpec NavModel.
Notation length := List.length.
Open Scope Z_scope.

(** the last event that is wanted *)
Fixpoint last_of {E A} (want : E -> option A) (h : list E) : option A :=
  match h with
  | [] => None
  | e :: r => match last_of want r with Some a => Some a | None => want e end
  end.

(* ---------- GPS/QZSS CNAV ---------- *)
Inductive cbody :=
| C10 (wn svh top ura_ed toe dA Adot deln delnd M0 e omg isf esf spare : Z)
| C11 (toe OMG0 i0 OMGd idot cis cic crs crc cus cuc spare : Z)
| C30 (id top ura0 ura1 ura2 toc af0 af1 af2 tgd isc1 isc2 isc3 isc4 iono wnop spare : Z)
| Cck (id top ura0 ura1 ura2 toc af0 af1 af2 body : Z)
| Cx (id body : Z).
Record cframe := CF { c_tow : Z; c_alert : Z; c_body : cbody; c_tail : Z }.
Definition ctype (b : cbody) : Z :=
  match b with
  | C10 _ _ _ _ _ _ _ _ _ _ _ _ _ _ _ => 10 | C11 _ _ _ _ _ _ _ _ _ _ _ _ => 11
  | C30 id _ _ _ _ _ _ _ _ _ _ _ _ _ _ _ _ => id | Cck id _ _ _ _ _ _ _ _ _ => id | Cx id _ => id end.
Definition cbody_fields (b : cbody) : list field :=
  match b with
  | C10 wn svh top ura_ed toe dA Adot deln delnd M0 e omg isf esf sp =>
      [(13 # wn); (3 # svh); (11 # top); (5 # ura_ed); (11 # toe); (26 # dA); (25 # Adot); (17 # deln); (23 # delnd); (33 # M0); (33 # e);
       (33 # omg); (1 # isf); (1 # esf); (3 # sp)]
  | C11 toe OMG0 i0 OMGd idot cis cic crs crc cus cuc sp =>
      [(11 # toe); (33 # OMG0); (33 # i0); (17 # OMGd); (15 # idot); (16 # cis); (16 # cic); (24 # crs); (24 # crc); (21 # cus); (21 # cuc); (7 # sp)]
  | C30 _ top ura0 ura1 ura2 toc af0 af1 af2 tgd i1 i2 i3 i4 iono wnop sp =>
      [(11 # top); (5 # ura0); (3 # ura1); (3 # ura2); (11 # toc); (26 # af0); (20 # af1); (10 # af2); (13 # tgd);
       (13 # i1); (13 # i2); (13 # i3); (13 # i4); (64 # iono); (8 # wnop); (12 # sp)]
  | Cck _ top ura0 ura1 ura2 toc af0 af1 af2 body =>
      [(11 # top); (5 # ura0); (3 # ura1); (3 # ura2); (11 # toc); (26 # af0); (20 # af1); (10 # af2); (149 # body)]
  | Cx _ body => [(238 # body)]
  end.
Definition cframe_fields (prn : Z) (f : cframe) : list field :=
  [(8 # 139); (6 # prn); (6 # ctype (c_body f)); (17 # c_tow f); (1 # c_alert f)] ++ cbody_fields (c_body f) ++ [(28 # c_tail f)].
Definition cbody_ok (b : cbody) : Prop :=
  match b with
  | C10 wn svh top ura_ed toe dA Adot deln delnd M0 e omg isf esf sp =>
      U 13 wn /\ U 3 svh /\ S_ 5 ura_ed /\ U 11 toe /\ S_ 26 dA /\ S_ 25 Adot /\ S_ 17 deln /\ S_ 23 delnd /\ S_ 33 M0 /\ U 33 e /\ S_ 33 omg /\
      U 1 isf /\ U 1 esf
  | C11 toe OMG0 i0 OMGd idot cis cic crs crc cus cuc sp =>
      U 11 toe /\ S_ 33 OMG0 /\ S_ 33 i0 /\ S_ 17 OMGd /\ S_ 15 idot /\ S_ 16 cis /\ S_ 16 cic /\ S_ 24 crs /\ S_ 24 crc /\ S_ 21 cus /\ S_ 21 cuc
  | C30 id top ura0 ura1 ura2 toc af0 af1 af2 tgd i1 i2 i3 i4 iono wnop sp =>
      (id = 30 \/ id = 61) /\ U 11 top /\ S_ 5 ura0 /\ U 3 ura1 /\ U 3 ura2 /\ U 11 toc /\ S_ 26 af0 /\ S_ 20 af1 /\ S_ 10 af2 /\ S_ 13 tgd /\
      S_ 13 i1 /\ S_ 13 i2 /\ S_ 13 i3 /\ S_ 13 i4 /\ U 8 wnop
  | Cck id top ura0 ura1 ura2 toc af0 af1 af2 body => 31 <= id <= 37 /\ U 11 toc
  | Cx id body => 0 <= id < 64 /\ ~ (10 <= id <= 11) /\ ~ (30 <= id <= 37) /\ id <> 61
  end.
Definition cframe_ok (f : cframe) : Prop := U 17 (c_tow f) /\ U 1 (c_alert f) /\ cbody_ok (c_body f).
(** ephemeris messages and the clock messages: type 61 is a clock message of QZSS only *)
Definition cslot (sys : gnss) (b : cbody) : Z :=
  match b with
  | C10 _ _ _ _ _ _ _ _ _ _ _ _ _ _ _ => 0 | C11 _ _ _ _ _ _ _ _ _ _ _ _ => 1
  | C30 id _ _ _ _ _ _ _ _ _ _ _ _ _ _ _ _ => if (id =? 61) && negb (gnss_eqb sys QZS) then -1 else 2
  | Cck _ _ _ _ _ _ _ _ _ _ => 2 | Cx _ _ => -1 end.
(** the ephemeris of types 10, 11 and 30 (or 61): one time of ephemeris and clock in all three.
    [opweek]: from the week and the eight bits sent, the week of prediction reported *)
Definition cnav_of (sys : gnss) (sat : Z) (opweek : Z -> Z -> Z) (f : option cframe * option cframe * option cframe) : option eph :=
  match f with
  | (Some f1, Some f2, Some f3) =>
    match c_body f1, c_body f2, c_body f3 with
    | C10 wn svh _ ura_ed toe dA Adot deln delnd M0 e omg isf esf _, C11 toe2 OMG0 i0 OMGd idot cis cic crs crc cus cuc _,
      C30 _ top ura0 ura1 ura2 toc af0 af1 af2 tgd i1 i2 i3 i4 _ wnop _ =>
        if (toe =? toe2) && (toe =? toc) then
          let tow := 6 * c_tow f1 in
          let w := near_week wn (300 * toc) tow in
          Some [ (Fsat, I sat); (Ftgd, V tgd 35); (Fisc 0, V i1 35); (Fisc 1, V i2 35); (Fisc 2, V i3 35); (Fisc 3, V i4 35);
            (Fweek, I w); (Fcode, I 1); (Fsvh, I svh); (Faf2, V af2 60); (Faf1, V af1 48); (Faf0, V af0 35);
            (Furai 0, I ura0); (Furai 1, I ura1); (Furai 2, I ura2); (Furai 3, I ura_ed); (Ftops, I (300 * top));
            (FA, V ((match sys with GPS => 26559710 | _ => 42164200 end) * 2 ^ 9 + dA) 9); (FAdot, V Adot 21);
            (Fdeln, Sc deln 44); (Fdelnd, Sc delnd 57); (FM0, Sc M0 32); (Fe, V e 34); (Fomg, Sc omg 32);
            (Finteg, I (4 * c_alert f1 + 2 * esf + isf)); (Fwnop, I (opweek wn wnop)); (Ftoes, I (300 * toe));
            (FOMG0, Sc OMG0 32); (Fi0, Sc i0 32); (FOMGd, ScO OMGd 44 (-26)); (Fidot, Sc idot 44);
            (Fcis, V cis 30); (Fcic, V cic 30); (Fcrs, V crs 8); (Fcrc, V crc 8); (Fcus, V cus 30); (Fcuc, V cuc 30); (Fmode, I 1);
            (Ftot, T (at_week gps0 wn tow)); (Ftoc, T (at_week gps0 w (300 * toc))); (Ftoe, T (at_week gps0 w (300 * toe)));
            (Ftop, T (at_week gps0 (opweek wn wnop) (300 * top)))]
        else None
    | _, _, _ => None
    end
  | _ => None
  end.
(** the message types looked at *)
Definition known (id : Z) : bool :=
  existsb (Z.eqb id) [10; 11; 12; 15; 30; 31; 32; 33; 34; 35; 36; 37; 60; 61].
(** a message received from a satellite; the six bits in it are the PRN (less 192 for QZSS) *)
Record cev := CE { ce_sys : gnss; ce_prn : Z; ce_frame : cframe; ce_rest : bits }.
Definition cev_ok (e : cev) : Prop :=
  (ce_sys e = GPS /\ 1 <= ce_prn e <= 32 \/ ce_sys e = QZS /\ 193 <= ce_prn e <= 209) /\ cframe_ok (ce_frame e).
Definition cev_bits (e : cev) : bits :=
  enc (cframe_fields (match ce_sys e with QZS => ce_prn e - 192 | _ => ce_prn e end) (ce_frame e)) ++ ce_rest e.
Definition cfeed (e : cev) (s : cnavst) : option (cnavst * option eph) :=
  decode_gps_cnav (prn2sat (ce_sys e) (ce_prn e)) (cev_bits e) s.
Definition cfeeds (h : list cev) (s : cnavst) : option cnavst := mfold (fun e s => do r <- cfeed e s; Some (fst r)) h s.
Definition cwant (sys : gnss) (prn k : Z) (e : cev) : option cframe :=
  if gnss_eqb (ce_sys e) sys && (ce_prn e =? prn) && (cslot sys (c_body (ce_frame e)) =? k) then Some (ce_frame e) else None.

(* ---------- GPS/QZSS CNAV-2 ---------- *)
Inductive c2page := Q1 (page utc iono isc1 isc2 isc3 isc4 : Z) | Qx (page body : Z).
Record c2frame := C2 { q_toi : Z; q_t1 : Z; q_wn : Z; q_itow : Z; q_top : Z; q_svh : Z; q_ura_ed : Z; q_toe : Z;
  q_dA : Z; q_Adot : Z; q_deln : Z; q_delnd : Z; q_M0 : Z; q_e : Z; q_omg : Z; q_OMG0 : Z; q_i0 : Z; q_OMGd : Z; q_idot : Z;
  q_cis : Z; q_cic : Z; q_crs : Z; q_crc : Z; q_cus : Z; q_cuc : Z; q_ura0 : Z; q_ura1 : Z; q_ura2 : Z; q_af0 : Z; q_af1 : Z; q_af2 : Z;
  q_tgd : Z; q_iscp : Z; q_iscd : Z; q_isf : Z; q_wnop : Z; q_esf : Z; q_gap : Z; q_prn : Z; q_page : c2page }.
Definition c2page_fields (p : c2page) : list field :=
  match p with
  | Q1 page utc iono i1 i2 i3 i4 => [(6 # page); (98 # utc); (64 # iono); (13 # i1); (13 # i2); (13 # i3); (13 # i4)]
  | Qx page body => [(6 # page); (214 # body)]
  end.
Definition c2_fields (f : c2frame) : list field :=
  [(9 # q_toi f); (43 # q_t1 f); (13 # q_wn f); (8 # q_itow f); (11 # q_top f); (1 # q_svh f); (5 # q_ura_ed f); (11 # q_toe f);
   (26 # q_dA f); (25 # q_Adot f); (17 # q_deln f); (23 # q_delnd f); (33 # q_M0 f); (33 # q_e f); (33 # q_omg f); (33 # q_OMG0 f);
   (33 # q_i0 f); (17 # q_OMGd f); (15 # q_idot f); (16 # q_cis f); (16 # q_cic f); (24 # q_crs f); (24 # q_crc f); (21 # q_cus f); (21 # q_cuc f);
   (5 # q_ura0 f); (3 # q_ura1 f); (3 # q_ura2 f); (26 # q_af0 f); (20 # q_af1 f); (10 # q_af2 f); (13 # q_tgd f); (13 # q_iscp f); (13 # q_iscd f);
   (1 # q_isf f); (8 # q_wnop f); (1 # q_esf f); (625 # q_gap f); (8 # q_prn f)] ++ c2page_fields (q_page f).
Definition c2page_ok (p : c2page) : Prop :=
  match p with
  | Q1 page utc iono i1 i2 i3 i4 => (page = 1 \/ page = 61) /\ S_ 13 i1 /\ S_ 13 i2 /\ S_ 13 i3 /\ S_ 13 i4
  | Qx page body => 0 <= page < 64 /\ page <> 1 /\ page <> 61 end.
Definition c2_ok (f : c2frame) : Prop :=
  (U 9 (q_toi f) /\ U 13 (q_wn f) /\ U 8 (q_itow f) /\ U 11 (q_top f) /\ U 1 (q_svh f) /\ S_ 5 (q_ura_ed f) /\ U 11 (q_toe f)) /\
  (S_ 26 (q_dA f) /\ S_ 25 (q_Adot f) /\ S_ 17 (q_deln f) /\ S_ 23 (q_delnd f) /\ S_ 33 (q_M0 f) /\ U 33 (q_e f) /\ S_ 33 (q_omg f) /\
   S_ 33 (q_OMG0 f) /\ S_ 33 (q_i0 f) /\ S_ 17 (q_OMGd f) /\ S_ 15 (q_idot f)) /\
  (S_ 16 (q_cis f) /\ S_ 16 (q_cic f) /\ S_ 24 (q_crs f) /\ S_ 24 (q_crc f) /\ S_ 21 (q_cus f) /\ S_ 21 (q_cuc f)) /\
  (S_ 5 (q_ura0 f) /\ U 3 (q_ura1 f) /\ U 3 (q_ura2 f) /\ S_ 26 (q_af0 f) /\ S_ 20 (q_af1 f) /\ S_ 10 (q_af2 f) /\ S_ 13 (q_tgd f) /\
   S_ 13 (q_iscp f) /\ S_ 13 (q_iscd f) /\ U 1 (q_isf f) /\ U 8 (q_wnop f) /\ U 1 (q_esf f)) /\
  c2page_ok (q_page f).
(** seconds of the week: two-hour intervals and eighteen-second intervals *)
Definition c2_tow (f : c2frame) : Z := 7200 * q_itow f + 18 * q_toi f.
(** [wk]: the week in which the time of ephemeris is reported *)
Definition cnav2_of (sys : gnss) (sat : Z) (opweek : Z -> Z -> Z) (wk : Z) (f : c2frame) : option eph :=
  match q_page f with
  | Q1 _ _ _ i1 i2 i3 i4 =>
      Some [ (Fsat, I sat); (Fisc 0, V i1 35); (Fisc 1, V i2 35); (Fisc 2, V i3 35); (Fisc 3, V i4 35);
        (Fweek, I wk); (Fcode, I 2); (Fsvh, I (q_svh f)); (Faf2, V (q_af2 f) 60); (Faf1, V (q_af1 f) 48); (Faf0, V (q_af0 f) 35);
        (Furai 0, I (q_ura0 f)); (Furai 1, I (q_ura1 f)); (Furai 2, I (q_ura2 f)); (Furai 3, I (q_ura_ed f));
        (Ftgd, V (q_tgd f) 35); (Fisc 4, V (q_iscd f) 35); (Fisc 5, V (q_iscp f) 35); (Ftops, I (300 * q_top f));
        (FA, V ((match sys with GPS => 26559710 | _ => 42164200 end) * 2 ^ 9 + q_dA f) 9); (FAdot, V (q_Adot f) 21);
        (Fdeln, Sc (q_deln f) 44); (Fdelnd, Sc (q_delnd f) 57); (FM0, Sc (q_M0 f) 32); (Fe, V (q_e f) 34); (Fomg, Sc (q_omg f) 32);
        (Finteg, I (match sys with GPS => q_isf f | _ => 2 * q_esf f + q_isf f end)); (Fwnop, I (opweek (q_wn f) (q_wnop f)));
        (Ftoes, I (300 * q_toe f)); (FOMG0, Sc (q_OMG0 f) 32); (Fi0, Sc (q_i0 f) 32); (FOMGd, ScO (q_OMGd f) 44 (-26)); (Fidot, Sc (q_idot f) 44);
        (Fcis, V (q_cis f) 30); (Fcic, V (q_cic f) 30); (Fcrs, V (q_crs f) 8); (Fcrc, V (q_crc f) 8); (Fcus, V (q_cus f) 30); (Fcuc, V (q_cuc f) 30);
        (Fmode, I 2); (Ftot, T (at_week gps0 (q_wn f) (c2_tow f)));
        (Ftoe, T (at_week gps0 wk (300 * q_toe f))); (Ftoc, T (at_week gps0 wk (300 * q_toe f)));
        (Ftop, T (at_week gps0 (opweek (q_wn f) (q_wnop f)) (300 * q_top f)))]
  | Qx _ _ => None
  end.

(* ---------- BDS B-CNAV ---------- *)
Record be1 := E1 { b_toe : Z; b_type : Z; b_dA : Z; b_Adot : Z; b_deln : Z; b_delnd : Z; b_M0 : Z; b_e : Z; b_omg : Z }.
Record be2 := E2 { b_OMG0 : Z; b_i0 : Z; b_OMGd : Z; b_idot : Z; b_cis : Z; b_cic : Z; b_crs : Z; b_crc : Z; b_cus : Z; b_cuc : Z }.
Record bck := CK { b_toc : Z; b_a0 : Z; b_a1 : Z; b_a2 : Z }.
Record bsi := SI { b_top : Z; b_s1 : Z; b_s2 : Z; b_s3 : Z }.
Definition e1_fields (x : be1) : list field :=
  [(11 # b_toe x); (2 # b_type x); (26 # b_dA x); (25 # b_Adot x); (17 # b_deln x); (23 # b_delnd x); (33 # b_M0 x); (33 # b_e x); (33 # b_omg x)].
Definition e2_fields (x : be2) : list field :=
  [(33 # b_OMG0 x); (33 # b_i0 x); (19 # b_OMGd x); (15 # b_idot x); (16 # b_cis x); (16 # b_cic x); (24 # b_crs x); (24 # b_crc x); (21 # b_cus x); (21 # b_cuc x)].
Definition ck_fields (x : bck) : list field := [(11 # b_toc x); (25 # b_a0 x); (22 # b_a1 x); (11 # b_a2 x)].
Definition si_fields (x : bsi) : list field := [(11 # b_top x); (5 # b_s1 x); (3 # b_s2 x); (3 # b_s3 x)].
Definition e1_ok (x : be1) : Prop :=
  U 11 (b_toe x) /\ U 2 (b_type x) /\ S_ 26 (b_dA x) /\ S_ 25 (b_Adot x) /\ S_ 17 (b_deln x) /\ S_ 23 (b_delnd x) /\ S_ 33 (b_M0 x) /\ U 33 (b_e x) /\ S_ 33 (b_omg x).
Definition e2_ok (x : be2) : Prop :=
  S_ 33 (b_OMG0 x) /\ S_ 33 (b_i0 x) /\ S_ 19 (b_OMGd x) /\ S_ 15 (b_idot x) /\ S_ 16 (b_cis x) /\ S_ 16 (b_cic x) /\ S_ 24 (b_crs x) /\ S_ 24 (b_crc x) /\
  S_ 21 (b_cus x) /\ S_ 21 (b_cuc x).
Definition ck_ok (x : bck) : Prop := U 11 (b_toc x) /\ S_ 25 (b_a0 x) /\ S_ 22 (b_a1 x) /\ S_ 11 (b_a2 x).
Definition si_ok (x : bsi) : Prop := U 11 (b_top x) /\ S_ 5 (b_s1 x) /\ S_ 3 (b_s2 x) /\ S_ 3 (b_s3 x).
(** BDT is 14 seconds behind GPS time *)
Definition bdt (week tow : Z) : gtime := at_week bds0 week (tow + 14).
Definition e1_attr (week : Z) (x : be1) : eph :=
  [ (Ftoes, I (300 * b_toe x)); (Fsattype, I (b_type x)); (FAdot, V (b_Adot x) 21); (Fdeln, Sc (b_deln x) 44); (Fdelnd, Sc (b_delnd x) 57);
    (FM0, Sc (b_M0 x) 32); (Fe, V (b_e x) 34); (Fomg, Sc (b_omg x) 32);
    (FA, V ((if b_type x =? 3 then 27906100 else 42162200) * 2 ^ 9 + b_dA x) 9); (Ftoe, T (bdt week (300 * b_toe x)))].
Definition e2_attr (x : be2) : eph :=
  [ (FOMG0, Sc (b_OMG0 x) 32); (Fi0, Sc (b_i0 x) 32); (FOMGd, Sc (b_OMGd x) 44); (Fidot, Sc (b_idot x) 44); (Fcis, V (b_cis x) 30); (Fcic, V (b_cic x) 30);
    (Fcrs, V (b_crs x) 8); (Fcrc, V (b_crc x) 8); (Fcus, V (b_cus x) 30); (Fcuc, V (b_cuc x) 30)].
Definition ck_attr (week : Z) (x : bck) : eph :=
  [ (Faf0, V (b_a0 x) 34); (Faf1, V (b_a1 x) 50); (Faf2, V (b_a2 x) 66); (Ftoc, T (bdt week (300 * b_toc x)))].
Definition si_attr (x : bsi) : eph :=
  [ (Fsisai 1, I (b_s1 x)); (Fsisai 2, I (b_s2 x)); (Fsisai 3, I (b_s3 x)); (Ftops, I (300 * b_top x))].

(** B1C: subframe 2, its error bits, subframe 3, the time in the hour *)
Inductive b1page := X1 (s0 : Z) (si : bsi) (r : Z) | Xx (page r : Z).
Record b1frame := B1F { x_wn : Z; x_how : Z; x_iodc : Z; x_iode : Z; x_e1 : be1; x_e2 : be2; x_ck : bck; x_tgda : Z; x_isc : Z; x_tgd : Z; x_r2 : Z;
  x_err : Z; x_svh : Z; x_integ : Z; x_sismai : Z; x_page : b1page; x_soh : Z }.
Definition x_no (p : b1page) : Z := match p with X1 _ _ _ => 1 | Xx n _ => n end.
Definition b1_fields (f : b1frame) : list field :=
  [(13 # x_wn f); (8 # x_how f); (10 # x_iodc f); (8 # x_iode f)] ++ e1_fields (x_e1 f) ++ e2_fields (x_e2 f) ++ ck_fields (x_ck f) ++
  [(12 # x_tgda f); (12 # x_isc f); (12 # x_tgd f); (31 # x_r2 f); (8 # x_err f);
   (6 # x_no (x_page f)); (2 # x_svh f); (3 # x_integ f); (4 # x_sismai f)] ++
  (match x_page f with X1 s0 si r => (5 # s0) :: si_fields si ++ [(222 # r)] | Xx _ r => [(249 # r)] end) ++ [(8 # x_soh f)].
Definition b1_ok (f : b1frame) : Prop :=
  (U 13 (x_wn f) /\ U 8 (x_how f) /\ U 10 (x_iodc f) /\ U 8 (x_iode f)) /\ e1_ok (x_e1 f) /\ e2_ok (x_e2 f) /\ ck_ok (x_ck f) /\
  (S_ 12 (x_tgda f) /\ S_ 12 (x_isc f) /\ S_ 12 (x_tgd f) /\ U 2 (x_svh f) /\ U 3 (x_integ f) /\ S_ 4 (x_sismai f) /\ U 8 (x_soh f)) /\
  match x_page f with X1 s0 si _ => U 5 s0 /\ si_ok si | Xx n _ => 0 <= n < 64 /\ n <> 1 end.
Definition b1_of (sat : Z) (f : b1frame) : option eph :=
  match x_page f with
  | X1 s0 si _ =>
      if x_iodc f mod 256 =? x_iode f then
        Some ([ (Fsat, I sat); (Fweek, I (x_wn f)); (Fiodc, I (x_iodc f)); (Fiode, I (x_iode f));
                (Ftot, T (at_week bds0 (x_wn f) (3600 * x_how f + 18 * x_soh f)))]
          ++ e1_attr (x_wn f) (x_e1 f) ++ e2_attr (x_e2 f) ++ ck_attr (x_wn f) (x_ck f) ++
          [ (Ftgd, V (x_tgd f) 34); (Fisc 0, V (x_isc f) 34); (Ftgdb, V (x_tgda f) 34); (Fsvh, I (x_svh f)); (Finteg, I (x_integ f));
            (Fsismai, I (x_sismai f)); (Fsisai 0, I s0)] ++ si_attr si ++ [(Fmode, I 1)])
      else None
  | Xx _ _ => None
  end.

(** B2a messages: 288 bits, with up to four further bytes *)
Inductive bbody :=
| A10 (wn ib2a sismai ib1c iode : Z) (e : be1) (r : Z)
| A11 (hs r1 : Z) (e : be2) (r : Z)
| A30 (r0 : Z) (k : bck) (iodc tgda isc iono tgd r : Z)
| A40 (r0 s0 : Z) (si : bsi) (r : Z)
| Ax (id r : Z).
Record bmsg := BM { a_prn : Z; a_sow : Z; a_body : bbody }.
Definition aid (b : bbody) : Z :=
  match b with A10 _ _ _ _ _ _ _ => 10 | A11 _ _ _ _ => 11 | A30 _ _ _ _ _ _ _ _ => 30 | A40 _ _ _ _ => 40 | Ax id _ => id end.
Definition abody_fields (b : bbody) : list field :=
  match b with
  | A10 wn ib2a sismai ib1c iode e r => [(13 # wn); (3 # ib2a); (4 # sismai); (3 # ib1c); (8 # iode)] ++ e1_fields e ++ [(24 # r)]
  | A11 hs r1 e r => [(2 # hs); (10 # r1)] ++ e2_fields e ++ [(24 # r)]
  | A30 r0 k iodc tgda isc iono tgd r => [(12 # r0)] ++ ck_fields k ++ [(10 # iodc); (12 # tgda); (12 # isc); (74 # iono); (12 # tgd); (57 # r)]
  | A40 r0 s0 si r => [(12 # r0); (5 # s0)] ++ si_fields si ++ [(219 # r)]
  | Ax _ r => [(258 # r)]
  end.
Definition amsg_fields (m : bmsg) : list field := [(6 # a_prn m); (6 # aid (a_body m)); (18 # a_sow m)] ++ abody_fields (a_body m).
Definition abody_ok (b : bbody) : Prop :=
  match b with
  | A10 wn ib2a sismai ib1c iode e r => U 13 wn /\ U 3 ib2a /\ S_ 4 sismai /\ U 3 ib1c /\ U 8 iode /\ e1_ok e
  | A11 hs r1 e r => U 2 hs /\ e2_ok e
  | A30 r0 k iodc tgda isc iono tgd r => ck_ok k /\ U 10 iodc /\ S_ 12 tgda /\ S_ 12 isc /\ S_ 12 tgd
  | A40 r0 s0 si r => U 5 s0 /\ si_ok si
  | Ax id r => 0 <= id < 64 /\ id <> 10 /\ id <> 11 /\ id <> 30 /\ id <> 40
  end.
(** consecutive messages 10, 11, 30 (three seconds each) of one issue, and a message 40 *)
Definition b2a_of (sat : Z) (m : option bmsg * option bmsg * option bmsg * option bmsg) : option eph :=
  match m with
  | (Some m1, Some m2, Some m3, Some m4) =>
    match a_body m1, a_body m2, a_body m3, a_body m4 with
    | A10 wn ib2a sismai ib1c iode e _, A11 hs _ e' _, A30 _ k iodc tgda isc _ tgd _, A40 _ s0 si _ =>
        if (a_sow m2 =? a_sow m1 + 1) && (a_sow m3 =? a_sow m1 + 2) && (iodc mod 256 =? iode) then
          Some ([ (Fsat, I sat); (Fsisai 0, I s0)] ++ si_attr si ++ [ (Fweek, I wn); (Fsismai, I sismai); (Fiode, I iode)] ++ e1_attr wn e ++
            [ (Finteg, I (8 * ib2a + ib1c))] ++ e2_attr e' ++ ck_attr wn k ++
            [ (Fiodc, I iodc); (Ftgd, V tgd 34); (Fisc 1, V isc 34); (Ftgdb, V tgda 34); (Fsvh, I hs);
              (Ftot, T (at_week bds0 wn (3 * a_sow m1))); (Fmode, I 2)])
        else None
    | _, _, _, _ => None
    end
  | _ => None
  end.

(** B2b messages: 474 bits read, up to 64 bytes *)
Inductive cbody2 :=
| D10 (r0 : Z) (e : be1) (e' : be2) (integ sismai : Z)
| D30 (wn r0 : Z) (k : bck) (tgd iono utc eop : Z) (si : bsi) (s0 svh : Z)
| Dx (id r : Z).
Record b2msg := B2M { d_head : Z; d_sow : Z; d_body : cbody2 }.
Definition did (b : cbody2) : Z := match b with D10 _ _ _ _ _ => 10 | D30 _ _ _ _ _ _ _ _ _ _ => 30 | Dx id _ => id end.
Definition dbody_fields (b : cbody2) : list field :=
  match b with
  | D10 r0 e e' integ sismai => [(4 # r0)] ++ e1_fields e ++ e2_fields e' ++ [(3 # integ); (4 # sismai)]
  | D30 wn r0 k tgd iono utc eop si s0 svh =>
      [(13 # wn); (4 # r0)] ++ ck_fields k ++ [(12 # tgd); (74 # iono); (97 # utc); (138 # eop)] ++ si_fields si ++ [(5 # s0); (2 # svh)]
  | Dx _ r => [(436 # r)]
  end.
Definition dmsg_fields (m : b2msg) : list field := [(12 # d_head m); (6 # did (d_body m)); (20 # d_sow m)] ++ dbody_fields (d_body m).
Definition dbody_ok (b : cbody2) : Prop :=
  match b with
  | D10 r0 e e' integ sismai => e1_ok e /\ e2_ok e' /\ U 3 integ /\ S_ 4 sismai
  | D30 wn r0 k tgd iono utc eop si s0 svh => U 13 wn /\ ck_ok k /\ S_ 12 tgd /\ si_ok si /\ U 5 s0 /\ U 2 svh
  | Dx id r => 0 <= id < 64 /\ id <> 10 /\ id <> 30
  end.
(** [ew]: from the week sent, the week in which the time of ephemeris is reported *)
Definition b2b_of (sat : Z) (ew : Z -> Z) (m : option b2msg * option b2msg) : option eph :=
  match m with
  | (Some m1, Some m2) =>
    match d_body m1, d_body m2 with
    | D10 _ e e' integ sismai, D30 wn _ k tgd _ _ _ si s0 svh =>
        if d_sow m2 =? d_sow m1 + 1 then
          Some ([ (Fsat, I sat)] ++ e1_attr (ew wn) e ++ e2_attr e' ++ [ (Finteg, I integ); (Fsismai, I sismai); (Fweek, I wn)] ++ ck_attr wn k ++
            [ (Ftgd, V tgd 34)] ++ si_attr si ++ [ (Fsisai 0, I s0); (Fsvh, I svh); (Ftot, T (at_week bds0 wn (d_sow m1))); (Fmode, I 3)])
        else None
    | _, _ => None
    end
  | _ => None
  end.

(* ---------- BDS D1 ---------- *)
(** words of 30 bits: 26 data bits and 4 of parity in the first, 22 and 8 in the others *)
Fixpoint bwords (par : list Z) (ws : list (list field)) : list field :=
  match ws with
  | [] => []
  | w :: r => w ++ [(8 # hd 0 par)] ++ bwords (tl par) r
  end.
Inductive dsub :=
| DA (svh iodc ura wn toc tgd tgdb r5 r6 r7 r8 af2 af0 af1 iode : Z)
| DB (deln cuc M0 e cus crc crs sqrtA toeh : Z)
| DC (toel i0 cic OMGd cis idot OMG0 omg r : Z)
| DX (id r2 r3 r4 r5 r6 r7 r8 r9 r10 : Z).
Record dframe := DF { f_rev : Z; f_sow : Z; f_par1 : Z; f_sub : dsub; f_par : list Z; f_pad : Z }.
Definition dno (s : dsub) : Z :=
  match s with DA _ _ _ _ _ _ _ _ _ _ _ _ _ _ _ => 1 | DB _ _ _ _ _ _ _ _ _ => 2 | DC _ _ _ _ _ _ _ _ _ => 3 | DX id _ _ _ _ _ _ _ _ _ => id end.
Definition dwords (sow : Z) (s : dsub) : list (list field) :=
  match s with
  | DA svh iodc ura wn toc tgd tgdb r5 r6 r7 r8 af2 af0 af1 iode =>
      [ [(12 # sow); (1 # svh); (5 # iodc); (4 # ura)]; [(13 # wn); (9 # toc / 2 ^ 8)]; [(8 # toc); (10 # tgd); (4 # tgdb / 2 ^ 6)]; [(6 # tgdb); (16 # r5)];
        [(22 # r6)]; [(22 # r7)]; [(4 # r8); (11 # af2); (7 # af0 / 2 ^ 17)]; [(17 # af0); (5 # af1 / 2 ^ 17)]; [(17 # af1); (5 # iode)] ]
  | DB deln cuc M0 e cus crc crs sqrtA toeh =>
      [ [(12 # sow); (10 # deln / 2 ^ 6)]; [(6 # deln); (16 # cuc / 2 ^ 2)]; [(2 # cuc); (20 # M0 / 2 ^ 12)]; [(12 # M0); (10 # e / 2 ^ 22)]; [(22 # e)];
        [(18 # cus); (4 # crc / 2 ^ 14)]; [(14 # crc); (8 # crs / 2 ^ 10)]; [(10 # crs); (12 # sqrtA / 2 ^ 20)]; [(20 # sqrtA); (2 # toeh)] ]
  | DC toel i0 cic OMGd cis idot OMG0 omg r =>
      [ [(12 # sow); (10 # toel / 2 ^ 5)]; [(5 # toel); (17 # i0 / 2 ^ 15)]; [(15 # i0); (7 # cic / 2 ^ 11)]; [(11 # cic); (11 # OMGd / 2 ^ 13)];
        [(13 # OMGd); (9 # cis / 2 ^ 9)]; [(9 # cis); (13 # idot / 2 ^ 1)]; [(1 # idot); (21 # OMG0 / 2 ^ 11)]; [(11 # OMG0); (11 # omg / 2 ^ 21)];
        [(21 # omg); (1 # r)] ]
  | DX _ r2 r3 r4 r5 r6 r7 r8 r9 r10 =>
      [ [(12 # sow); (10 # r2)]; [(22 # r3)]; [(22 # r4)]; [(22 # r5)]; [(22 # r6)]; [(22 # r7)]; [(22 # r8)]; [(22 # r9)]; [(22 # r10)] ]
  end.
Definition dframe_fields (f : dframe) : list field :=
  [(11 # 1810); (4 # f_rev f); (3 # dno (f_sub f)); (8 # f_sow f / 2 ^ 12); (4 # f_par1 f)] ++ bwords (f_par f) (dwords (f_sow f) (f_sub f)) ++ [(20 # f_pad f)].
Definition dsub_ok (s : dsub) : Prop :=
  match s with
  | DA svh iodc ura wn toc tgd tgdb r5 r6 r7 r8 af2 af0 af1 iode =>
      U 1 svh /\ U 5 iodc /\ U 4 ura /\ U 13 wn /\ U 17 toc /\ S_ 10 tgd /\ S_ 10 tgdb /\ S_ 11 af2 /\ S_ 24 af0 /\ S_ 22 af1 /\ U 5 iode
  | DB deln cuc M0 e cus crc crs sqrtA toeh =>
      S_ 16 deln /\ S_ 18 cuc /\ S_ 32 M0 /\ U 32 e /\ S_ 18 cus /\ S_ 18 crc /\ S_ 18 crs /\ U 32 sqrtA /\ U 2 toeh
  | DC toel i0 cic OMGd cis idot OMG0 omg r =>
      U 15 toel /\ S_ 32 i0 /\ S_ 18 cic /\ S_ 24 OMGd /\ S_ 18 cis /\ S_ 14 idot /\ S_ 32 OMG0 /\ S_ 32 omg
  | DX id _ _ _ _ _ _ _ _ _ => id = 0 \/ 4 <= id < 8
  end.
Definition dframe_ok (f : dframe) : Prop := U 20 (f_sow f) /\ dsub_ok (f_sub f).
(** the ephemeris of subframes 1, 2 and 3.  [tw]: from the week, the time of ephemeris and the time of
    transmission, the week in which the times are reported; [scale]: the time scale they are reported in *)
Definition d1_of (sat : Z) (tw : Z -> Z -> Z -> Z) (scale : Z -> Z -> gtime) (f : option dframe * option dframe * option dframe) : option eph :=
  match f with
  | (Some f1, Some f2, Some f3) =>
    match f_sub f1, f_sub f2, f_sub f3 with
    | DA svh iodc ura wn toc tgd tgdb _ _ _ _ af2 af0 af1 iode, DB deln cuc M0 e cus crc crs sqrtA toeh, DC toel i0 cic OMGd cis idot OMG0 omg _ =>
        let toes := 8 * (2 ^ 15 * toeh + toel) in
        let w := tw wn toes (f_sow f1) in
        Some [ (Fsat, I sat); (Fsvh, I svh); (Fiodc, I iodc); (Fweek, I w); (Ftgd, D tgd 10); (Ftgdb, D tgdb 10);
          (Faf2, V af2 66); (Faf0, V af0 33); (Faf1, V af1 50); (Fiode, I iode); (Fdeln, Sc deln 43); (Fcuc, V cuc 31); (FM0, Sc M0 31);
          (Fe, V e 33); (Fcus, V cus 31); (Fcrc, V crc 6); (Fcrs, V crs 6); (FA, V (sqrtA * sqrtA) 38); (Fi0, Sc i0 31); (Fcic, V cic 31);
          (FOMGd, Sc OMGd 43); (Fcis, V cis 31); (Fidot, Sc idot 43); (FOMG0, Sc OMG0 31); (Fomg, Sc omg 31);
          (Fsva, H (nth_error ura_cm (Z.to_nat ura))); (Ftoes, I toes); (Ftot, T (bdt wn (f_sow f1)));
          (Ftoc, T (scale w (8 * toc))); (Ftoe, T (scale w toes)); (Fflag, I 1); (Fmode, I 0)]
    | _, _, _ => None
    end
  | _ => None
  end.
(** what the code takes for the week: moved the other way *)
Definition far_week (week t tow : Z) : Z :=
  if t - tow >? 302400 then week + 1 else if t - tow <? - 302400 then week - 1 else week.

(* ---------- BDS D2 ---------- *)
(** the data words of the ten pages of subframe 1 (the second, and any other, as it comes) *)
Inductive dpage :=
| P1 (svh iodc ura wn toc tgd tgdb r : Z)
| P3 (r2 r3 r4 af0 a1h r5 : Z)
| P4 (a1l af2 iode deln cuch r5 : Z)
| P5 (cucl M0 cus eh r5 : Z)
| P6 (el sqrtA cich r5 : Z)
| P7 (cicl cis toe i0h r5 : Z)
| P8 (i0l crc crs OMGdh r5 : Z)
| P9 (OMGdl OMG0 omgh r5 : Z)
| P10 (omgl idot r3 r4 r5 : Z)
| PX (no r2 r3 r4 r5 : Z).
Record d2page := PG { p_rev : Z; p_frame : Z; p_sow : Z; p_par1 : Z; p_page : dpage; p_par : list Z; p_pad : Z }.
Definition pno (p : dpage) : Z :=
  match p with P1 _ _ _ _ _ _ _ _ => 1 | P3 _ _ _ _ _ _ => 3 | P4 _ _ _ _ _ _ => 4 | P5 _ _ _ _ _ => 5 | P6 _ _ _ _ => 6 | P7 _ _ _ _ _ => 7
    | P8 _ _ _ _ _ => 8 | P9 _ _ _ _ => 9 | P10 _ _ _ _ _ => 10 | PX n _ _ _ _ => n end.
Definition pwords (p : dpage) : list (list field) :=
  match p with
  | P1 svh iodc ura wn toc tgd tgdb r =>
      [ [(1 # svh); (5 # iodc)]; [(4 # ura); (13 # wn); (5 # toc / 2 ^ 12)]; [(12 # toc); (10 # tgd)]; [(10 # tgdb); (12 # r)] ]
  | P3 r2 r3 r4 af0 a1h r5 =>
      [ [(6 # r2)]; [(22 # r3)]; [(10 # r4); (12 # af0 / 2 ^ 12)]; [(12 # af0); (4 # a1h); (6 # r5)] ]
  | P4 a1l af2 iode deln cuch r5 =>
      [ [(6 # a1l / 2 ^ 12)]; [(12 # a1l); (10 # af2 / 2 ^ 1)]; [(1 # af2); (5 # iode); (16 # deln)]; [(14 # cuch); (8 # r5)] ]
  | P5 cucl M0 cus eh r5 =>
      [ [(4 # cucl); (2 # M0 / 2 ^ 30)]; [(22 # M0 / 2 ^ 8)]; [(8 # M0); (14 # cus / 2 ^ 4)]; [(4 # cus); (10 # eh); (8 # r5)] ]
  | P6 el sqrtA cich r5 =>
      [ [(6 # el / 2 ^ 16)]; [(16 # el); (6 # sqrtA / 2 ^ 26)]; [(22 # sqrtA / 2 ^ 4)]; [(4 # sqrtA); (10 # cich); (8 # r5)] ]
  | P7 cicl cis toe i0h r5 =>
      [ [(6 # cicl / 2 ^ 2)]; [(2 # cicl); (18 # cis); (2 # toe / 2 ^ 15)]; [(15 # toe); (7 # i0h / 2 ^ 14)]; [(14 # i0h); (8 # r5)] ]
  | P8 i0l crc crs OMGdh r5 =>
      [ [(6 # i0l / 2 ^ 5)]; [(5 # i0l); (17 # crc / 2 ^ 1)]; [(1 # crc); (18 # crs); (3 # OMGdh / 2 ^ 16)]; [(16 # OMGdh); (6 # r5)] ]
  | P9 OMGdl OMG0 omgh r5 =>
      [ [(5 # OMGdl); (1 # OMG0 / 2 ^ 31)]; [(22 # OMG0 / 2 ^ 9)]; [(9 # OMG0); (13 # omgh / 2 ^ 14)]; [(14 # omgh); (8 # r5)] ]
  | P10 omgl idot r3 r4 r5 => [ [(5 # omgl); (1 # idot / 2 ^ 13)]; [(13 # idot); (9 # r3)]; [(22 # r4)]; [(22 # r5)] ]
  | PX _ r2 r3 r4 r5 => [ [(6 # r2)]; [(22 # r3)]; [(22 # r4)]; [(22 # r5)] ]
  end.
Definition d2page_fields (p : d2page) : list field :=
  [(11 # 1810); (4 # p_rev p); (3 # p_frame p); (8 # p_sow p / 2 ^ 12); (4 # p_par1 p); (12 # p_sow p); (4 # pno (p_page p))] ++
  bwords (p_par p) (pwords (p_page p)) ++ [(10 # p_pad p)].
Definition dpage_ok (p : dpage) : Prop :=
  match p with
  | P1 svh iodc ura wn toc tgd tgdb r => U 1 svh /\ U 5 iodc /\ U 4 ura /\ U 13 wn /\ U 17 toc /\ S_ 10 tgd /\ S_ 10 tgdb
  | P3 _ _ _ af0 a1h _ => S_ 24 af0 /\ S_ 4 a1h
  | P4 a1l af2 iode deln cuch _ => U 18 a1l /\ S_ 11 af2 /\ U 5 iode /\ S_ 16 deln /\ S_ 14 cuch
  | P5 cucl M0 cus eh _ => U 4 cucl /\ S_ 32 M0 /\ S_ 18 cus /\ U 10 eh
  | P6 el sqrtA cich _ => U 22 el /\ U 32 sqrtA /\ S_ 10 cich
  | P7 cicl cis toe i0h _ => U 8 cicl /\ S_ 18 cis /\ U 17 toe /\ S_ 21 i0h
  | P8 i0l crc crs OMGdh _ => U 11 i0l /\ S_ 18 crc /\ S_ 18 crs /\ S_ 19 OMGdh
  | P9 OMGdl OMG0 omgh _ => U 5 OMGdl /\ S_ 32 OMG0 /\ S_ 27 omgh
  | P10 omgl idot _ _ _ => U 5 omgl /\ S_ 14 idot
  | PX n _ _ _ _ => n = 0 \/ n = 2 \/ 11 <= n < 16
  end.
Definition d2page_ok (p : d2page) : Prop := U 3 (p_frame p) /\ U 20 (p_sow p) /\ dpage_ok (p_page p).
(** the ephemeris of pages 1 and 3 to 10, the latter of one half minute.  [rM], [re], [rA]: the mantissas of the
    mean anomaly, the eccentricity and the root of the semi-major axis (given page 1's second group delay) reported *)
Definition d2_of (sat : Z) (tw : Z -> Z -> Z -> Z) (scale : Z -> Z -> gtime) (rM re : Z -> Z) (rA : Z -> Z -> Z)
    (p1 p3 p4 p5 p6 p7 p8 p9 p10 : option d2page) : option eph :=
  match p1, p3, p4, p5, p6, p7, p8, p9, p10 with
  | Some q1, Some q3, Some q4, Some q5, Some q6, Some q7, Some q8, Some q9, Some q10 =>
    match p_page q1, p_page q3, p_page q4, p_page q5, p_page q6, p_page q7, p_page q8, p_page q9, p_page q10 with
    | P1 svh iodc ura wn toc tgd tgdb _, P3 _ _ _ af0 a1h _, P4 a1l af2 iode deln cuch _, P5 cucl M0 cus eh _, P6 el sqrtA cich _,
      P7 cicl cis toe i0h _, P8 i0l crc crs OMGdh _, P9 OMGdl OMG0 omgh _, P10 omgl idot _ _ _ =>
        let t := p_sow q3 in
        if (p_sow q4 =? t + 3) && (p_sow q5 =? t + 6) && (p_sow q6 =? t + 9) && (p_sow q7 =? t + 12) && (p_sow q8 =? t + 15) &&
           (p_sow q9 =? t + 18) && (p_sow q10 =? t + 21) then
          let toes := 8 * toe in
          let w := tw wn toes (p_sow q1) in
          Some [ (Fsat, I sat); (Fsvh, I svh); (Fiodc, I iodc); (Fweek, I w); (Ftgd, D tgd 10); (Ftgdb, D tgdb 10); (Faf0, V af0 33);
            (Faf2, V af2 66); (Fiode, I iode); (Fdeln, Sc deln 43); (FM0, Sc (rM M0) 31); (Fcus, V cus 31);
            (FA, V (rA tgdb sqrtA * rA tgdb sqrtA) 38);
            (Fcis, V cis 31); (Ftoes, I toes); (Fcrc, V crc 6); (Fcrs, V crs 6); (FOMG0, Sc OMG0 31); (Fidot, Sc idot 43);
            (Fsva, H (nth_error ura_cm (Z.to_nat ura)));
            (Faf1, V (2 ^ 18 * a1h + a1l) 50); (Fcuc, V (2 ^ 4 * cuch + cucl) 31); (Fe, V (re (2 ^ 22 * eh + el)) 33);
            (Fcic, V (2 ^ 8 * cich + cicl) 31); (Fi0, Sc (2 ^ 11 * i0h + i0l) 31); (FOMGd, Sc (2 ^ 5 * OMGdh + OMGdl) 43);
            (Fomg, Sc (2 ^ 5 * omgh + omgl) 31); (Ftot, T (bdt wn (p_sow q1))); (Ftoc, T (scale w (8 * toc)));
            (Ftoe, T (scale w toes)); (Fflag, I 2); (Fmode, I 0)]
        else None
    | _, _, _, _, _, _, _, _, _ => None
    end
  | _, _, _, _, _, _, _, _, _ => None
  end.

(* ---------- histories of one kind of message ---------- *)
(** a message of kind [M] from BDS satellite [prn], with what follows it *)
Definition bev (M : Type) : Type := (Z * M * bits)%type.
Definition bwant {M} (no : M -> Z) (prn k : Z) (e : bev M) : option M :=
  let '(q, m, _) := e in if (q =? prn) && (no m =? k) then Some m else None.
Definition bfeed {M} (dec : Z -> bits -> dict Z bits -> option (dict Z bits * option eph)) (fl : M -> list field) (e : bev M)
    (d : dict Z bits) : option (dict Z bits * option eph) :=
  let '(q, m, rest) := e in dec (prn2sat BDS q) (enc (fl m) ++ rest) d.
Definition bfeeds {M} dec (fl : M -> list field) (h : list (bev M)) (d : dict Z bits) : option (dict Z bits) :=
  mfold (fun e d => do r <- bfeed dec fl e d; Some (fst r)) h d.
