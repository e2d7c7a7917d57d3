(** RINEX observation codes, written from the RINEX 3.05/4.00 observation code tables
    (bands and tracking attributes per constellation, codeless "N" on L1 excluded), and the carrier
    frequencies of those tables. Independent of the code's own checks. *)
From Verif Require Import SigModel.
Open Scope Z_scope.

Definition rinex_attrs (sys : gnss) (band : Z) : string :=
  match sys, band with
  | GPS, 1 => "CSLXPWYM" | GPS, 2 => "CDSLXPWYMN" | GPS, 5 => "IQX"
  | GLO, 1 => "CP" | GLO, 2 => "CP" | GLO, 3 => "IQX" | GLO, 4 => "ABX" | GLO, 6 => "ABX"
  | GAL, 1 => "ABCXZ" | GAL, 5 => "IQX" | GAL, 6 => "ABCXZ" | GAL, 7 => "IQX" | GAL, 8 => "IQX"
  | SBS, 1 => "C" | SBS, 5 => "IQX"
  | QZS, 1 => "CESLXZB" | QZS, 2 => "SLX" | QZS, 5 => "IQXDPZ" | QZS, 6 => "SLXEZ"
  | BDS, 1 => "DPXSLZ" | BDS, 2 => "IQX" | BDS, 5 => "DPX" | BDS, 6 => "IQXDPZ" | BDS, 7 => "IQXDPZ" | BDS, 8 => "DPX"
  | IRN, 1 => "DPX" | IRN, 5 => "ABCX" | IRN, 9 => "ABCX"
  | _, _ => ""
  end.

(** a band digit and attribute letter defined for the constellation *)
Definition rinex_code (sys : gnss) (band : Z) (attr : ascii) : bool := cin attr (rinex_attrs sys band).

(** carrier frequency in Hz; GLONASS FDMA bands depend on the channel *)
Definition rinex_freq (sys : gnss) (band k : Z) : option Z :=
  match sys, band with
  | GPS, 1 | QZS, 1 | GAL, 1 | SBS, 1 | BDS, 1 | IRN, 1 => Some 1575420000
  | GPS, 2 | QZS, 2 => Some 1227600000
  | GPS, 5 | QZS, 5 | GAL, 5 | SBS, 5 | BDS, 5 | IRN, 5 => Some 1176450000
  | GLO, 1 => Some (1602000000 + k * 562500)
  | GLO, 2 => Some (1246000000 + k * 437500)
  | GLO, 3 => Some 1202025000
  | GLO, 4 => Some 1600995000
  | GLO, 6 => Some 1248060000
  | GAL, 6 | QZS, 6 => Some 1278750000
  | GAL, 7 | BDS, 7 => Some 1207140000
  | GAL, 8 | BDS, 8 => Some 1191795000
  | BDS, 2 => Some 1561098000
  | BDS, 6 => Some 1268520000
  | IRN, 9 => Some 2492028000
  | _, _ => None
  end.

(** characters of RINEX codes: letters, digits and blank *)
Definition rnx_char (c : ascii) : Prop :=
  let z := ord c in z = 32 \/ 48 <= z <= 57 \/ 65 <= z <= 90 \/ 97 <= z <= 122.
