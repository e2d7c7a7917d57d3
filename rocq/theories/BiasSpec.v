(** RTCM code and phase bias messages as bit strings, and what they do to the decoder, stated without the codec
    (header, satellite numbers and signed fields of RtcmSsrSpec.v). *)
From Verif Require Import SatModel SatSpec TimeModel CssrState RtcmFrame RtcmFrameSpec RtcmSsr RtcmSsrSpec BiasModel Base.
From Coq Require Import String.
Notation length := List.length.
Open Scope Z_scope.

(** the RINEX band and attribute of a signal number *)
Definition sname (s : gnss) (code : Z) : option string :=
  match s, code with
  | GPS, 0 => Some "1C" | GPS, 1 => Some "1P" | GPS, 2 => Some "1W" | GPS, 5 => Some "2C" | GPS, 6 => Some "2D" | GPS, 7 => Some "2S"
  | GPS, 8 => Some "2L" | GPS, 9 => Some "2X" | GPS, 10 => Some "2P" | GPS, 11 => Some "2W" | GPS, 14 => Some "5I" | GPS, 15 => Some "5Q"
  | GPS, 16 => Some "5X" | GPS, 17 => Some "1S" | GPS, 18 => Some "1L" | GPS, 19 => Some "1X"
  | GLO, 0 => Some "1C" | GLO, 1 => Some "1P" | GLO, 2 => Some "2C" | GLO, 3 => Some "2P" | GLO, 4 => Some "4A" | GLO, 5 => Some "4B"
  | GLO, 6 => Some "6A" | GLO, 7 => Some "6B" | GLO, 10 => Some "3I" | GLO, 11 => Some "3Q"
  | GAL, 0 => Some "1A" | GAL, 1 => Some "1B" | GAL, 2 => Some "1C" | GAL, 3 => Some "1X" | GAL, 4 => Some "1Z" | GAL, 5 => Some "5I"
  | GAL, 6 => Some "5Q" | GAL, 7 => Some "5X" | GAL, 8 => Some "7I" | GAL, 9 => Some "7Q" | GAL, 10 => Some "7X" | GAL, 11 => Some "8I"
  | GAL, 12 => Some "8Q" | GAL, 13 => Some "8X" | GAL, 14 => Some "6A" | GAL, 15 => Some "6B" | GAL, 16 => Some "6C" | GAL, 17 => Some "6X"
  | GAL, 18 => Some "6Z"
  | BDS, 0 => Some "2I" | BDS, 1 => Some "2Q" | BDS, 2 => Some "2X" | BDS, 3 => Some "6I" | BDS, 4 => Some "6Q" | BDS, 5 => Some "6X"
  | BDS, 6 => Some "7I" | BDS, 7 => Some "7Q" | BDS, 8 => Some "7X" | BDS, 9 => Some "1D" | BDS, 10 => Some "1P" | BDS, 11 => Some "1X"
  | BDS, 12 => Some "5D" | BDS, 13 => Some "5P" | BDS, 14 => Some "5X" | BDS, 15 => Some "1A"
  | QZS, 0 => Some "1C" | QZS, 1 => Some "1S" | QZS, 2 => Some "1L" | QZS, 3 => Some "2S" | QZS, 4 => Some "2L" | QZS, 5 => Some "2X"
  | QZS, 6 => Some "5I" | QZS, 7 => Some "5Q" | QZS, 8 => Some "5X" | QZS, 9 => Some "6S" | QZS, 10 => Some "6L" | QZS, 11 => Some "6X"
  | QZS, 12 => Some "1X" | QZS, 17 => Some "6E" | QZS, 19 => Some "1E"
  | SBS, 0 => Some "1C" | SBS, 1 => Some "5I" | SBS, 2 => Some "5Q" | SBS, 3 => Some "5X"
  | _, _ => None
  end%string.
(** the key of a signal: observation type (C or L) and name *)
Definition key (t : string) (s : gnss) (code : Z) : string := match sname s code with Some n => (t ++ n)%string | None => EmptyString end.

(** biases of a satellite: number, and for each signal (number, value); values with 14 or 20 bits, the most negative
    meaning "not available" *)
Record csat := CS { c_prn : Z; c_sigs : list (Z * option Z) }.
Record psig := PG { g_code : Z; g_si : bool; g_wl : Z; g_di : Z; g_pb : option Z }.
Record psat := PS { p_prn : Z; p_yaw : Z; p_dyaw : option Z; p_sigs : list psig }.
(** phase bias messages: the published ones and IGS ([POld], two flags, always yaw, wide-lane indicators), or numbers
    85 to 89 ([PNew], a flag for the yaw angles and a property id) *)
Inductive pform := POld (ci mw : Z) | PNew (yaw : bool) (ex : Z).
Definition is_old (f : pform) : bool := match f with POld _ _ => true | PNew _ _ => false end.
Definition with_yaw (f : pform) : bool := match f with POld _ _ => true | PNew y _ => y end.

Definition cs_bits (igs : bool) (s : gnss) (x : csat) : bits :=
  bitsof (slot_len igs s) (slot s (c_prn x)) ++ bitsof 5 (Z.of_nat (length (c_sigs x))) ++
  flat_map (fun g => bitsof 5 (fst g) ++ field 14 (snd g)) (c_sigs x).
Definition pg_bits (f : pform) (g : psig) : bits :=
  bitsof 5 (g_code g) ++ [g_si g] ++ (if is_old f then bitsof 2 (g_wl g) else []) ++ bitsof 4 (g_di g) ++ field 20 (g_pb g).
Definition ps_bits (f : pform) (igs : bool) (s : gnss) (x : psat) : bits :=
  bitsof (slot_len igs s) (slot s (p_prn x)) ++ bitsof 5 (Z.of_nat (length (p_sigs x))) ++
  (if with_yaw f then bitsof 9 (p_yaw x) ++ field 8 (p_dyaw x) else []) ++ flat_map (pg_bits f) (p_sigs x).
Definition cbody (igs : bool) (s : gnss) (h : hdr) (l : list csat) : bits := head_bits igs s SCB h (length l) ++ flat_map (cs_bits igs s) l.
Definition pbody (f : pform) (igs : bool) (s : gnss) (h : hdr) (l : list psat) : bits :=
  bitsof (tow_len igs s) (g_tow h) ++ bitsof 4 (g_udi h) ++ [g_mi h] ++ bitsof 4 (g_iod h) ++ bitsof 16 (g_pid h) ++ bitsof 4 (g_sid h) ++
  match f with POld ci mw => bitsof 1 ci ++ bitsof 1 mw | PNew y x => [y] ++ bitsof 4 x end ++ bitsof 6 (Z.of_nat (length l)) ++
  flat_map (ps_bits f igs s) l.
(** message numbers of phase biases *)
Definition pnumber (f : pform) (s : gnss) : option Z :=
  if is_old f then match s with GPS => Some 1265 | GLO => Some 1266 | GAL => Some 1267 | QZS => Some 1268 | SBS => Some 1269 | BDS => Some 1270 | _ => None end
  else match s with GPS => Some 85 | GLO => Some 86 | GAL => Some 87 | BDS => Some 88 | QZS => Some 89 | _ => None end.
Definition igs_base (s : gnss) : option Z :=
  match s with GPS => Some 20 | GLO => Some 40 | GAL => Some 60 | QZS => Some 80 | BDS => Some 100 | SBS => Some 120 | _ => None end.
(** the start of a message, and whether it is an IGS one *)
Inductive start (s : gnss) (num : Z -> Prop) (k : Z) : bool -> bits -> Prop :=
| Rtcm mt : num mt -> start s num k false (bitsof 12 mt)
| Igs b ver : igs_base s = Some b -> 0 <= ver < 8 -> start s num k true (bitsof 12 4076 ++ bitsof 3 ver ++ bitsof 8 (b + k)).

Definition psat_ok (igs : bool) (s : gnss) (prn : Z) : Prop := owns s prn /\ slot s prn < 2 ^ Z.of_nat (slot_len igs s).
(** signals are named, and named once; QZSS number 2 is left out, see C85_qzss_refuted *)
Definition codes_ok (s : gnss) (l : list Z) : Prop := NoDup l /\ Forall (fun c => sname s c <> None /\ ~ (s = QZS /\ c = 2)) l.
Definition cs_ok (igs : bool) (s : gnss) (x : csat) : Prop :=
  psat_ok igs s (c_prn x) /\ codes_ok s (map fst (c_sigs x)) /\ Forall (fun g => fits 14 (snd g)) (c_sigs x).
Definition pg_ok (g : psig) : Prop := 0 <= g_wl g < 4 /\ 0 <= g_di g < 16 /\ fits 20 (g_pb g).
Definition ps_ok (igs : bool) (s : gnss) (x : psat) : Prop :=
  psat_ok igs s (p_prn x) /\ (0 <= p_yaw x < 512 /\ fits 8 (p_dyaw x)) /\ codes_ok s (map g_code (p_sigs x)) /\ Forall pg_ok (p_sigs x).
Definition form_ok (f : pform) : Prop := match f with POld ci mw => 0 <= ci < 2 /\ 0 <= mw < 2 | PNew _ x => 0 <= x < 16 end.

(** the dictionary of a satellite after its signals: those sent hold what was sent, the others what they held *)
Definition now {V G} (t : string) (s : gnss) (code : G -> Z) (val : G -> V) (sigs : list G) (old d : sdict V) : Prop :=
  (forall g, In g sigs -> sget (key t s (code g)) d = Some (val g)) /\
  (forall k, ~ In k (map (fun g => key t s (code g)) sigs) -> sget k d = sget k old).
(** the dictionary of dictionaries after a message *)
Definition nows {V E G} (t : string) (s : gnss) (prn : E -> Z) (sigs : E -> list G) (code : G -> Z) (val : G -> V) (es : list E) (old d : dict Z (sdict V)) : Prop :=
  (forall e, In e es -> exists x, zget (prn2sat s (prn e)) d = Some x /\
     now t s code val (sigs e) (match zget (prn2sat s (prn e)) old with Some y => y | None => [] end) x) /\
  (forall sat, ~ In sat (map (fun e => prn2sat s (prn e)) es) -> zget sat d = zget sat old).
Definition holdz {V E} (s : gnss) (prn : E -> Z) (val : E -> V) (es : list E) (old d : dict Z V) : Prop :=
  (forall e, In e es -> zget (prn2sat s (prn e)) d = Some (val e)) /\
  (forall sat, ~ In sat (map (fun e => prn2sat s (prn e)) es) -> zget sat d = zget sat old).

Section Effect.
Context {Q : Type}.
Notation rst := (@rst Q).
Notation bst := (@bst Q).
(** no other message's corrections change *)
Definition same_corr (a b : rst) : Prop :=
  r_nsat_n b = r_nsat_n a /\ r_sys_n b = r_sys_n a /\ r_sat_n b = r_sat_n a /\ r_iode b = r_iode a /\ r_dorb b = r_dorb a /\
  r_ddorb b = r_ddorb a /\ r_dclk b = r_dclk a /\ r_ddclk b = r_ddclk a /\ r_dddclk b = r_dddclk a /\ r_hclk b = r_hclk a /\ r_ura b = r_ura a.
Definition ceffect (s : gnss) (t : gtime) (h : hdr) (es : list csat) (st st' : bst) : Prop :=
  let new := timediff 1 t (r_t0s (b_base st) SCB) >? 0 in
  let ss := map (fun e => prn2sat s (c_prn e)) es in
  head_in SCB t h (b_base st) (b_base st') /\ tagged [SCB] [SCB] t h ss (b_base st) (b_base st') /\ same_corr (b_base st) (b_base st') /\
  nows "C" s c_prn c_sigs fst snd es (if new then [] else b_cb st) (b_cb st') /\
  (forall x, In x (b_satb st') <-> In x ss \/ (new = false /\ In x (b_satb st))) /\ (NoDup (b_satb st) -> NoDup (b_satb st')) /\
  (b_pb st', b_si st', b_di st', b_wl st', b_yaw st', b_dyaw st') = (b_pb st, b_si st, b_di st, b_wl st, b_yaw st, b_dyaw st).
Definition peffect (f : pform) (s : gnss) (t : gtime) (h : hdr) (es : list psat) (st st' : bst) : Prop :=
  let new := timediff 1 t (r_t0s (b_base st) SPB) >? 0 in
  let ss := map (fun e => prn2sat s (p_prn e)) es in
  let keep {A} (l : list A) := if new then [] else l in
  head_in SPB t h (b_base st) (b_base st') /\ tagged [SPB] [SPB] t h ss (b_base st) (b_base st') /\ same_corr (b_base st) (b_base st') /\
  nows "L" s p_prn p_sigs g_code g_pb es (keep (b_pb st)) (b_pb st') /\
  nows "L" s p_prn p_sigs g_code g_si es (keep (b_si st)) (b_si st') /\
  nows "L" s p_prn p_sigs g_code g_di es (keep (b_di st)) (b_di st') /\
  nows "L" s p_prn (fun e => if is_old f then p_sigs e else []) g_code g_wl es (keep (b_wl st)) (b_wl st') /\
  holdz s p_prn p_yaw (if with_yaw f then es else []) (b_yaw st) (b_yaw st') /\
  holdz s p_prn p_dyaw (if with_yaw f then es else []) (b_dyaw st) (b_dyaw st') /\
  (forall x, In x (b_satb st') <-> In x ss \/ (new = false /\ In x (b_satb st))) /\ (NoDup (b_satb st) -> NoDup (b_satb st')) /\ b_cb st' = b_cb st.
(** the four dictionaries of the phase biases have the same satellites (as made by the decoder) *)
Definition aligned (st : bst) : Prop :=
  forall sat, (zget sat (b_si st) = None <-> zget sat (b_pb st) = None) /\ (zget sat (b_di st) = None <-> zget sat (b_pb st) = None) /\
    (zget sat (b_wl st) = None <-> zget sat (b_pb st) = None).
End Effect.

(* ---------- what is given to the encoder ---------- *)
Definition theirs {V} (s : gnss) (l : list (Z * V)) : list (Z * V) := filter (fun x => gnss_eqb (fst (sat2prn (fst x))) s) l.
(** signal [r] was made from its RINEX name; QZSS L1 C/A is left out, see C85_qzss_refuted *)
Definition made (t : string) (s : gnss) (code : Z) (r : rsig) : Prop := mk2 s (key t s code) = Some r /\ ~ (s = QZS /\ code = 0).
(** the encoder's dictionaries, restricted to the constellation, hold these biases *)
Definition cgiven (s : gnss) (l : list (Z * list (rsig * option Z))) (es : list csat) : Prop :=
  Forall2 (fun x e => fst x = prn2sat s (c_prn e) /\
    Forall2 (fun a g => made "C" s (fst g) (fst a) /\ snd a = snd g /\ snd g <> None) (snd x) (c_sigs e)) (theirs s l) es.
Definition pgiven (s : gnss) (iyaw : bool) (yaw : dict Z Z) (dyaw : dict Z (option Z)) (l : list (Z * list pent)) (es : list psat) : Prop :=
  Forall2 (fun x e => fst x = prn2sat s (p_prn e) /\
    Forall2 (fun a g => made "L" s (g_code g) (q_sig a) /\ q_pb a = g_pb g /\ q_di a = g_di g /\ negb (q_si a =? 0) = g_si g) (snd x) (p_sigs e) /\
    (if iyaw then zget (fst x) yaw = Some (p_yaw e) /\ zget (fst x) dyaw = Some (p_dyaw e) /\ p_dyaw e <> None
     else zget (fst x) yaw = None)) (theirs s l) es.
Definition ehead (e : ebst) (c : sct) : hdr := HDR (eb_tow e) (eb_udi e c) (eb_mi e) 0 (eb_iod e) (eb_pid e) (eb_sid e).
