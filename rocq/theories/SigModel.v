(** RINEX signal representation: /repo/src/cssrlib/gnss.py:45-80 (frequencies), 186-316 (uTYP, uSIG),
    352-639 (rSigRnx), and the signal-index tables of the correction services.

    A Python [str] is a Coq [string]; the 256 [ascii] values stand for the code points U+0000..U+00FF
    (simplified: other code points are not representable). [None] is a raised exception
    (ValueError for parsing, KeyError for the tables). *)
From Verif Require Export SatModel.
Open Scope Z_scope.

(** gnss.py:188-196 uTYP *)
Inductive typ := TNONE | TC | TL | TD | TS.
Definition typ_eqb (a b : typ) : bool :=
  match a, b with TNONE, TNONE | TC, TC | TL, TL | TD, TD | TS, TS => true | _, _ => false end.

(** gnss.py:199-316 members of uSIG (value -1 is NONE) *)
Definition usig_members : list Z :=
  [-1; 100; 101; 102; 103; 104; 105; 112; 113; 114; 116; 119; 123; 124; 125; 126; 200; 203; 204; 209; 212; 213; 214; 216; 217; 219; 223; 224; 225; 300; 309; 317; 324; 400; 401; 402; 424; 500; 501; 502; 503; 504; 509; 516; 517; 524; 526; 600; 601; 602; 603; 604; 605; 609; 612; 616; 617; 619; 624; 626; 700; 704; 709; 716; 717; 724; 726; 800; 804; 809; 816; 817; 824; 900; 901; 902; 903; 924].

(** cssrlib.py:362-471 tables of ssig2rsig (compact SSR), enums cssrlib.py:85-191: (signal index, uSIG value) *)
Definition cssr_sig_tbl (sys : gnss) : option (list (Z * Z)) :=
  match sys with
  | GPS => Some [(0, 103); (1, 116); (2, 123); (3, 119); (4, 112); (5, 124); (6, 219); (7, 212); (8, 224); (9, 216); (10, 223); (11, 509); (12, 517); (13, 524)]
  | GLO => Some [(0, 103); (1, 116); (2, 203); (3, 216); (4, 401); (5, 402); (6, 424); (7, 601); (8, 602); (9, 624); (10, 309); (11, 317); (12, 324)]
  | GAL => Some [(0, 102); (1, 103); (2, 124); (3, 509); (4, 517); (5, 524); (6, 709); (7, 717); (8, 724); (9, 809); (10, 817); (11, 824); (12, 602); (13, 603); (14, 624)]
  | BDS => Some [(0, 209); (1, 217); (2, 224); (3, 609); (4, 617); (5, 624); (6, 709); (7, 717); (8, 724); (9, 104); (10, 116); (11, 124); (12, 504); (13, 516); (14, 524)]
  | QZS => Some [(0, 103); (1, 119); (2, 103); (3, 124); (4, 219); (5, 212); (6, 224); (7, 509); (8, 517); (9, 524); (10, 604); (11, 616); (12, 605); (13, 105)]
  | SBS => Some [(0, 103); (1, 509); (2, 517); (3, 524)]
  | IRN => Some [(0, 104); (1, 116); (2, 124); (3, 524); (6, 901)]
  | _ => None
  end.

(** cssr_bds.py:25-69 tables of ssig2rsig (BDS B2b) *)
Definition bds_sig_tbl (sys : gnss) : option (list (Z * Z)) :=
  match sys with
  | GPS => Some [(0, 103); (1, 116); (4, 112); (5, 124); (7, 212); (8, 224); (11, 509); (12, 517); (13, 524)]
  | GLO => Some [(0, 103); (1, 116); (2, 203)]
  | GAL => Some [(1, 102); (2, 103); (4, 517); (5, 509); (7, 709); (8, 717); (11, 603)]
  | BDS => Some [(0, 209); (1, 104); (2, 116); (4, 504); (5, 516); (7, 704); (8, 716); (12, 609)]
  | _ => None
  end.

(** rtcm.py:849-957 tables of ssig2rsig (RTCM SSR) *)
Definition rtcm_sig_tbl (sys : gnss) : option (list (Z * Z)) :=
  match sys with
  | GPS => Some [(0, 103); (1, 116); (2, 123); (5, 203); (6, 204); (7, 219); (8, 212); (9, 224); (10, 216); (11, 223); (14, 509); (15, 517); (16, 524); (17, 119); (18, 112); (19, 124)]
  | GLO => Some [(0, 103); (1, 116); (2, 203); (3, 216); (4, 401); (5, 402); (6, 601); (7, 602); (10, 309); (11, 317)]
  | GAL => Some [(0, 101); (1, 102); (2, 103); (3, 124); (4, 126); (5, 509); (6, 517); (7, 524); (8, 709); (9, 717); (10, 724); (11, 809); (12, 817); (13, 824); (14, 601); (15, 602); (16, 603); (17, 624); (18, 626)]
  | BDS => Some [(0, 209); (1, 217); (2, 224); (3, 609); (4, 617); (5, 624); (6, 709); (7, 717); (8, 724); (9, 104); (10, 116); (11, 124); (12, 504); (13, 516); (14, 524); (15, 101)]
  | QZS => Some [(0, 103); (1, 119); (2, 103); (3, 219); (4, 212); (5, 224); (6, 509); (7, 517); (8, 524); (9, 619); (10, 612); (11, 624); (12, 124); (17, 605); (19, 105)]
  | SBS => Some [(0, 103); (1, 509); (2, 517); (3, 524)]
  | _ => None
  end.

(** rtcm.py:496-601 tables of rsig2code *)
Definition rtcm_code_tbl (sys : gnss) : option (list (Z * Z)) :=
  match sys with
  | GPS => Some [(0, 103); (1, 116); (2, 123); (5, 203); (6, 204); (7, 219); (8, 212); (9, 224); (10, 216); (11, 223); (14, 509); (15, 517); (16, 524); (17, 119); (18, 112); (19, 124)]
  | GLO => Some [(0, 103); (1, 116); (2, 203); (3, 216); (4, 401); (5, 402); (6, 601); (7, 602); (10, 309); (11, 317)]
  | GAL => Some [(0, 101); (1, 102); (2, 103); (3, 124); (4, 126); (5, 509); (6, 517); (7, 524); (8, 709); (9, 717); (10, 724); (11, 809); (12, 817); (13, 824); (14, 601); (15, 602); (16, 603); (17, 624); (18, 626)]
  | BDS => Some [(0, 209); (1, 217); (2, 224); (3, 609); (4, 617); (5, 624); (6, 709); (7, 717); (8, 724); (9, 104); (10, 116); (11, 124); (12, 504); (13, 516); (14, 524); (15, 101)]
  | QZS => Some [(0, 103); (1, 119); (2, 103); (3, 219); (4, 212); (5, 224); (6, 509); (7, 517); (8, 524); (9, 619); (10, 612); (11, 624); (12, 124); (17, 605); (19, 105)]
  | SBS => Some [(0, 103); (1, 509); (2, 517); (3, 524)]
  | _ => None
  end.

(** rtcm.py:609-721 tables of msm2rsig (MSM) *)
Definition msm_sig_tbl (sys : gnss) : option (list (Z * Z)) :=
  match sys with
  | GPS => Some [(2, 103); (3, 116); (4, 123); (8, 203); (9, 216); (10, 223); (15, 219); (16, 212); (17, 224); (22, 509); (23, 517); (24, 524); (30, 119); (31, 112); (32, 124)]
  | GLO => Some [(2, 103); (3, 116); (8, 203); (9, 216); (10, 401); (11, 402); (12, 424); (13, 601); (14, 624); (15, 309); (16, 317); (17, 324)]
  | GAL => Some [(2, 103); (3, 101); (4, 102); (5, 124); (6, 126); (8, 603); (9, 601); (10, 602); (11, 624); (12, 626); (14, 709); (15, 717); (16, 724); (18, 809); (19, 817); (20, 824); (22, 509); (23, 517); (24, 524)]
  | BDS => Some [(2, 209); (3, 217); (4, 224); (8, 609); (9, 617); (10, 624); (14, 709); (15, 717); (16, 724); (22, 504); (23, 516); (24, 524); (25, 704); (30, 104); (31, 116); (32, 124)]
  | QZS => Some [(2, 103); (3, 105); (9, 619); (10, 612); (11, 624); (15, 219); (16, 212); (17, 224); (22, 509); (23, 517); (24, 524); (30, 119); (31, 112); (32, 124)]
  | SBS => Some [(2, 103); (22, 509); (23, 517); (24, 524)]
  | IRN => Some [(8, 901); (22, 501)]
  | _ => None
  end.


Definition ord (c : ascii) : Z := Z.of_N (N_of_ascii c).
Definition chr (z : Z) : ascii := ascii_of_N (Z.to_N z).

(** str.isspace of the code points below 256 *)
Definition is_space (c : ascii) : bool :=
  let z := ord c in
  ((9 <=? z) && (z <=? 13)) || ((28 <=? z) && (z <=? 32)) || (z =? 133) || (z =? 160).
Fixpoint lstrip (s : string) : string :=
  match s with String c r => if is_space c then lstrip r else s | EmptyString => s end.
Fixpoint rstrip (s : string) : string :=
  match s with
  | EmptyString => EmptyString
  | String c r => match rstrip r with
                  | EmptyString => if is_space c then EmptyString else String c EmptyString
                  | r' => String c r'
                  end
  end.
(** str.strip() *)
Definition strip (s : string) : string := rstrip (lstrip s).

(** [c in s] for a one-character string *)
Fixpoint cin (c : ascii) (s : string) : bool :=
  match s with EmptyString => false | String d r => Ascii.eqb c d || cin c r end.
Definition ceq (c : ascii) (d : ascii) : bool := Ascii.eqb c d.

(** gnss.py:482-519: the condition under which a three-character code raises ValueError.
    The second and third GPS tests compare s[2] instead of s[1], as in the source (gnss.py:484-485). *)
Definition attr_bad (sys : gnss) (s1 s2 : ascii) : bool :=
  (match sys with
   | GPS => (ceq s1 "1" && negb (cin s2 "CSLXPWYM")) ||
            (ceq s2 "2" && negb (cin s2 "CDSLXPWYMN")) ||
            (ceq s2 "5" && negb (cin s2 "IQX"))
   | GLO => (ceq s1 "1" && negb (cin s2 "CPX")) || (ceq s1 "2" && negb (cin s2 "CPX")) ||
            (ceq s1 "3" && negb (cin s2 "IQX")) || (ceq s1 "4" && negb (cin s2 "ABX")) ||
            (ceq s1 "6" && negb (cin s2 "ABX"))
   | GAL => (ceq s1 "1" && negb (cin s2 "ABCXZ")) || (ceq s1 "5" && negb (cin s2 "IQX")) ||
            (ceq s1 "6" && negb (cin s2 "ABCXZ")) || (ceq s1 "7" && negb (cin s2 "IQX")) ||
            (ceq s1 "8" && negb (cin s2 "IQX"))
   | SBS => (ceq s1 "1" && negb (cin s2 "C")) || (ceq s1 "5" && negb (cin s2 "IQX"))
   | QZS => (ceq s1 "1" && negb (cin s2 "CESLXZB")) || (ceq s1 "2" && negb (cin s2 "SLX")) ||
            (ceq s1 "5" && negb (cin s2 "IQXDPZ")) || (ceq s1 "6" && negb (cin s2 "SLXEZ"))
   | BDS => (ceq s1 "2" && negb (cin s2 "IQX")) || (ceq s1 "1" && negb (cin s2 "DPXSLZ")) ||
            (ceq s1 "5" && negb (cin s2 "DPX")) || (ceq s1 "7" && negb (cin s2 "IQXDPZ")) ||
            (ceq s1 "8" && negb (cin s2 "DPX")) || (ceq s1 "6" && negb (cin s2 "IQXDPZ"))
   | IRN => (ceq s1 "1" && negb (cin s2 "DPX")) || (ceq s1 "5" && negb (cin s2 "ABCX")) ||
            (ceq s1 "9" && negb (cin s2 "ABCX"))
   | NONE => false
   end).

(** [int(c)] of one character: ValueError unless a decimal digit *)
Definition digit (c : ascii) : option Z :=
  let z := ord c in if (48 <=? z) && (z <=? 57) then Some (z - 48) else None.

(** gnss.py:465-474 *)
Definition typ_of (c : ascii) : option typ :=
  (match c with "C" => Some TC | "L" => Some TL | "D" => Some TD | "S" => Some TS | _ => None end)%char.

Record rsig := RS { rsys : gnss; rtyp : typ; rnum : Z }.

(** gnss.py:477-523: [uSIG(sig)] raises ValueError for a value that is not a member *)
Definition usig (z : Z) : option Z := if existsb (Z.eqb z) usig_members then Some z else None.

(** gnss.py:448-523 str2sig *)
Definition str2sig (sys : gnss) (s : string) : option rsig :=
  match strip s with
  | String c0 (String c1 rest) =>
    do ty <- typ_of c0;
    do d <- digit c1;
    match rest with
    | String c2 EmptyString =>
      if attr_bad sys c1 c2 then None
      else do u <- usig (d * 100 + (ord c2 - 65 + 1)); Some (RS sys ty u)
    | _ => do u <- usig (d * 100); Some (RS sys ty u)
    end
  | _ => None
  end.

(** gnss.py:381-394 rSigRnx(sys, str): length 2..3 *)
Definition mk2 (sys : gnss) (s : string) : option rsig :=
  let n := String.length s in
  if (2 <=? n)%nat && (n <=? 3)%nat then str2sig sys s else None.

(** gnss.py:369-379 rSigRnx(str): length 3..4, first character is the constellation *)
Definition mk1 (x : string) : option rsig :=
  let n := String.length x in
  if (3 <=? n)%nat && (n <=? 4)%nat
  then match x with String c r => str2sig (char2sys c) r | EmptyString => None end
  else None.

(** gnss.py:525-548 str(); [int(sig/100)] is truncation, [sig % 100] floor modulo; '{}'.format of a
    one-digit integer (members are below 1000; NONE = -1 gives '0' and chr(99+64)) *)
Definition sig_str (r : rsig) : string :=
  let tail := String (chr (48 + Z.quot (rnum r) 100))
                (String (if rnum r mod 100 =? 0 then " "%char else chr (rnum r mod 100 + 65 - 1)) EmptyString) in
  match rtyp r with
  | TC => String "C" tail | TL => String "L" tail | TD => String "D" tail | TS => String "S" tail
  | TNONE => "???"%string
  end.

(** gnss.py:420-422 __repr__ *)
Definition sig_repr (r : rsig) : string := String (sys2char (rsys r)) (sig_str r).

(** gnss.py:434-438 toTyp, 441-445 toAtt, 550-554 band *)
Definition toTyp (r : rsig) (t : typ) : rsig := RS (rsys r) t (rnum r).
Definition toAtt (r : rsig) (att : string) : option rsig :=
  mk2 (rsys r) (String.append (String.substring 0 2 (sig_str r)) att).
Definition band (r : rsig) : option Z := usig (rnum r / 100 * 100).

(** gnss.py:556-633 frequency(k) in Hz, constants gnss.py:45-80; [None] is the returned None *)
Definition frequency (r : rsig) (k : option Z) : option Z :=
  let b := Z.quot (rnum r) 100 in
  match rsys r with
  | GPS => if b =? 1 then Some 1575420000 else if b =? 2 then Some 1227600000
           else if b =? 5 then Some 1176450000 else None
  | GLO => match b, k with
           | 1, Some k => Some (1602000000 + k * 562500)
           | 2, Some k => Some (1246000000 + k * 437500)
           | 3, _ => Some 1202025000
           | 4, _ => Some 1600995000
           | 5, _ => Some 1248065000
           | _, _ => None
           end
  | GAL => if b =? 1 then Some 1575420000 else if b =? 5 then Some 1176450000
           else if b =? 6 then Some 1278750000 else if b =? 7 then Some 1207140000
           else if b =? 8 then Some 1191795000 else None
  | BDS => if b =? 1 then Some 1575420000 else if b =? 2 then Some 1561098000
           else if b =? 5 then Some 1176450000 else if b =? 6 then Some 1268520000
           else if b =? 7 then Some 1207140000 else if b =? 8 then Some 1191795000 else None
  | QZS => if b =? 1 then Some 1575420000 else if b =? 2 then Some 1227600000
           else if b =? 5 then Some 1176450000 else if b =? 6 then Some 1278750000 else None
  | SBS => if b =? 1 then Some 1575420000 else if b =? 5 then Some 1176450000 else None
  | IRN => if b =? 1 then Some 1575420000 else if b =? 5 then Some 1191795000
           else if b =? 9 then Some 2492028000 else None
  | NONE => None
  end.

(** dictionary lookup; later entries of a dict literal with the same key would win, keys here are distinct *)
Fixpoint assoc (l : list (Z * Z)) (k : Z) : option Z :=
  match l with [] => None | (a, b) :: r => if a =? k then Some b else assoc r k end.
Definition lookup2 (t : gnss -> option (list (Z * Z))) (sys : gnss) (i : Z) : option Z :=
  do l <- t sys; assoc l i.

(** cssrlib.py:362-474, cssr_bds.py:25-72, rtcm.py:609-724 *)
Definition cssr_ssig2rsig (sys : gnss) (t : typ) (i : Z) : option rsig :=
  do u <- lookup2 cssr_sig_tbl sys i; Some (RS sys t u).
Definition bds_ssig2rsig (sys : gnss) (t : typ) (i : Z) : option rsig :=
  do u <- lookup2 bds_sig_tbl sys i; Some (RS sys t u).
Definition msm2rsig (sys : gnss) (t : typ) (i : Z) : option rsig :=
  do u <- lookup2 msm_sig_tbl sys i; Some (RS sys t u).
(** rtcm.py:849-966: an index missing from the table gives the empty signal rSigRnx() *)
Definition rtcm_ssig2rsig (sys : gnss) (t : typ) (i : Z) : option rsig :=
  do l <- rtcm_sig_tbl sys;
  Some (match assoc l i with Some u => RS sys t u | None => RS NONE TNONE (-1) end).

(** rtcm.py:603-607: [dic = {usig_tbl[s]: s for s in usig_tbl}]; a later index overwrites an earlier one *)
Definition rsig2code (r : rsig) : option Z :=
  do l <- rtcm_code_tbl (rsys r);
  assoc (rev (map (fun '(a, b) => (b, a)) l)) (rnum r).
