(** Specification of the MADOCA-PPP ionosphere messages: the bits sent and the effect of receiving them. *)
From Coq Require Import Reals.
From Verif Require Import SatModel SatSpec CssrState MdcModel Base.
Open Scope Z_scope.

Definition uns (n v : Z) : Prop := 0 <= v < 2 ^ n.
Definition sig (n v : Z) : Prop := - 2 ^ (n - 1) <= v < 2 ^ (n - 1).

(* ---------- coverage message (type 1) ---------- *)
Definition area_ok (e : Z * ainfo) : Prop :=
  uns 5 (fst e) /\
  match snd e with
  | Rect a b c d => sig 11 a /\ uns 12 b /\ uns 8 c /\ uns 8 d
  | Circ a b r => sig 15 a /\ uns 16 b /\ uns 8 r
  end.
Definition area_bits (e : Z * ainfo) : bits :=
  bitsof 5 (fst e) ++
  match snd e with
  | Rect a b c d => [false] ++ bitsof 11 a ++ bitsof 12 b ++ bitsof 8 c ++ bitsof 8 d
  | Circ a b r => [true] ++ bitsof 15 a ++ bitsof 16 b ++ bitsof 8 r
  end.
Record amsg := AM { a_tow : Z; a_uid : Z; a_mi : Z; a_iod : Z; a_reg : Z; a_alrt : Z; a_len : Z; a_list : list (Z * ainfo) }.
Definition amsg_ok (m : amsg) : Prop :=
  uns 20 (a_tow m) /\ uns 4 (a_uid m) /\ uns 1 (a_mi m) /\ uns 4 (a_iod m) /\ uns 8 (a_reg m) /\ uns 1 (a_alrt m) /\
  uns 16 (a_len m) /\ (length (a_list m) < 32)%nat /\ Forall area_ok (a_list m).
Definition amsg_bits (m : amsg) : bits :=
  bitsof 20 (a_tow m) ++ bitsof 4 (a_uid m) ++ bitsof 1 (a_mi m) ++ bitsof 4 (a_iod m) ++
  bitsof 8 (a_reg m) ++ bitsof 1 (a_alrt m) ++ bitsof 16 (a_len m) ++ bitsof 5 (Z.of_nat (length (a_list m))) ++
  flat_map area_bits (a_list m).

(** the shape known for an area *)
Definition shape_of (s : mst) (reg area : Z) : option ainfo :=
  match zget reg (m_pnt s) with Some d => zget area d | None => None end.
(** the last announcement of an area in a list *)
Fixpoint last_of (l : list (Z * ainfo)) (area : Z) : option ainfo :=
  match l with
  | [] => None
  | (a, p) :: l' => match last_of l' area with Some q => Some q | None => if a =? area then Some p else None end
  end.
Definition area_effect (m : amsg) (s s' : mst) : Prop :=
  m_tow0 s' <= a_tow m < m_tow0 s' + 3600 /\ (3600 | m_tow0 s') /\
  m_reg s' = a_reg m /\ m_alrt s' = a_alrt m /\
  (forall area, shape_of s' (a_reg m) area =
     match last_of (a_list m) area with Some p => Some p | None => shape_of s (a_reg m) area end) /\
  (forall reg area, reg <> a_reg m -> shape_of s' reg area = shape_of s reg area) /\
  m_lc s' = m_lc s /\ m_week s' = m_week s /\ m_area s' = m_area s.

(* ---------- correction message (type 2) ---------- *)
(** satellite number as sent, quality, coefficients *)
Record sent := SE { e_prn : Z; e_q : Z; e_00 : Z; e_01 : Z; e_10 : Z; e_11 : Z; e_02 : Z; e_20 : Z }.
Definition coefs (e : sent) : list Z := [e_00 e; e_01 e; e_10 e; e_11 e; e_02 e; e_20 e].
(** the type (0..3) tells which coefficients are present; absent ones are zero *)
Definition sent_ok (ty : Z) (e : sent) : Prop :=
  uns 6 (e_prn e) /\ uns 6 (e_q e) /\ sig 14 (e_00 e) /\ sig 12 (e_01 e) /\ sig 12 (e_10 e) /\ sig 10 (e_11 e) /\
  sig 8 (e_02 e) /\ sig 8 (e_20 e) /\
  (ty < 1 -> e_01 e = 0 /\ e_10 e = 0) /\ (ty < 2 -> e_11 e = 0) /\ (ty < 3 -> e_02 e = 0 /\ e_20 e = 0).
Definition sent_bits (ty : Z) (e : sent) : bits :=
  bitsof 6 (e_prn e) ++ bitsof 6 (e_q e) ++ bitsof 14 (e_00 e) ++
  (if 1 <=? ty then bitsof 12 (e_01 e) ++ bitsof 12 (e_10 e) else []) ++
  (if 2 <=? ty then bitsof 10 (e_11 e) else []) ++
  (if 3 <=? ty then bitsof 8 (e_02 e) ++ bitsof 8 (e_20 e) else []).
Record cmsg := CM { c_dtow : Z; c_uid : Z; c_mi : Z; c_iod : Z; c_reg : Z; c_area : Z; c_type : Z;
                    c_gps : list sent; c_glo : list sent; c_gal : list sent; c_bds : list sent; c_qzs : list sent }.
(** the satellites of the message in the order sent *)
Definition c_groups (m : cmsg) : list (gnss * list sent) :=
  [(GPS, c_gps m); (GLO, c_glo m); (GAL, c_gal m); (BDS, c_bds m); (QZS, c_qzs m)].
Definition c_all (m : cmsg) : list (gnss * sent) := flat_map (fun g => map (fun e => (fst g, e)) (snd g)) (c_groups m).
(** PRN: QZSS satellites are sent as 1, 2, ... *)
Definition prn_of (ge : gnss * sent) : Z := match fst ge with QZS => 192 + e_prn (snd ge) | _ => e_prn (snd ge) end.
Definition cmsg_ok (m : cmsg) : Prop :=
  uns 12 (c_dtow m) /\ uns 4 (c_uid m) /\ uns 1 (c_mi m) /\ uns 4 (c_iod m) /\ uns 8 (c_reg m) /\ uns 5 (c_area m) /\
  uns 2 (c_type m) /\
  (forall g, In g (c_groups m) -> (length (snd g) < 32)%nat /\ Forall (sent_ok (c_type m)) (snd g)).
(** every satellite exists and occurs once *)
Definition cmsg_sats (m : cmsg) : Prop :=
  (forall ge, In ge (c_all m) -> owns (fst ge) (prn_of ge)) /\ NoDup (map (fun ge => (fst ge, prn_of ge)) (c_all m)).
Definition cmsg_bits (m : cmsg) : bits :=
  bitsof 12 (c_dtow m) ++ bitsof 4 (c_uid m) ++ bitsof 1 (c_mi m) ++ bitsof 4 (c_iod m) ++
  bitsof 8 (c_reg m) ++ bitsof 5 (c_area m) ++ bitsof 2 (c_type m) ++
  flat_map (fun g => bitsof 5 (Z.of_nat (length (snd g)))) (c_groups m) ++
  flat_map (fun ge => sent_bits (c_type m) (snd ge)) (c_all m).

(** number of areas of a region; areas are numbered from 1 *)
Definition region_areas (reg : Z) : Z :=
  if reg =? 1 then 8 else if reg =? 2 then 16 else if reg =? 3 then 5 else if reg =? 4 then 1
  else if reg =? 5 then 8 else 0.
Definition known_area (reg area : Z) : Prop := 1 <= area <= region_areas reg.

(** content of the table entry [inet] after the message, and everything else as before *)
Definition corr_effect (m : cmsg) (inet : nat) (s s' : mst) : Prop :=
  m_reg s' = c_reg m /\ m_area s' = c_area m /\ m_week s' = m_week s /\ m_tow0 s' = m_tow0 s /\ m_alrt s' = m_alrt s /\
  m_pnt s' = m_pnt s /\ length (m_lc s') = length (m_lc s) /\
  (forall k, k <> inet -> nth_error (m_lc s') k = nth_error (m_lc s) k) /\
  exists lc, nth_error (m_lc s') inet = Some lc /\
    l_nsat lc = Z.of_nat (length (l_sat lc)) /\
    map sat2prn (l_sat lc) = map (fun ge => (fst ge, prn_of ge)) (c_all m) /\
    Forall2 (fun sat ge => zget sat (l_ci lc) = Some (coefs (snd ge)) /\ zget sat (l_qi lc) = Some (e_q (snd ge)) /\
                           zget sat (l_stype lc) = Some (c_type m)) (l_sat lc) (c_all m) /\
    l_t0 lc = TimeModel.gpst2time 1 (m_week s) (m_tow0 s + c_dtow m) /\ l_stec lc = true /\ l_ref lc = c_iod m.

(* ---------- positions ---------- *)
Open Scope R_scope.
(** a rectangle is given by its centre and half extents *)
Definition in_rect (latr lonr lats lons : Z) (lat lon : R) : Prop :=
  Rabs (lat - IZR latr / 10) <= IZR lats / 10 /\ Rabs (lon - IZR lonr / 10) <= IZR lons / 10.
(** the delay polynomial in TECU, offsets in degrees from the reference point of the area *)
Definition tec (e : sent) (dlat dlon : R) : R :=
  IZR (e_00 e) / 20 + (IZR (e_01 e) * dlat + IZR (e_10 e) * dlon + IZR (e_11 e) * (dlat * dlon)) / 50 +
  (IZR (e_02 e) * dlat ^ 2 + IZR (e_20 e) * dlon ^ 2) / 200.
