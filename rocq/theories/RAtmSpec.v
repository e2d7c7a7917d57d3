(** RTCM troposphere (95), ionosphere (96 to 100) and grid (61) messages as bit strings, and what they do to the decoder,
    stated without the codec (header, satellite numbers and signed fields of RtcmSsrSpec.v). *)
From Verif Require Import SatModel SatSpec TimeModel CssrState RtcmFrame RtcmFrameSpec RtcmSsr RtcmSsrSpec MsmSpec RAtmModel Base.
From Coq Require Import Sorted.
Notation length := List.length.
Open Scope Z_scope.

Definition ahead_bits (s : gnss) (h : hdr) : bits :=
  bitsof (tow_len false s) (g_tow h) ++ bitsof 4 (g_udi h) ++ [g_mi h] ++ bitsof 4 (g_iod h) ++ bitsof 16 (g_pid h) ++ bitsof 4 (g_sid h).

(* ---------- troposphere ---------- *)
(** residuals: first point, widths of the hydrostatic and of the wet values (0: not sent), values of each point *)
Record tres := RS { s_ofst : Z; s_n : nat; s_m : nat; s_rows : list (option Z * option Z) }.
(** mapping function coefficients (a, b, c hydrostatic; a, b, c wet) as differences to the nominal ones; zenith delay and
    gradients (c00, c10, c01) hydrostatic and wet *)
Record trop := TR { t_h : hdr; t_gid : Z; t_ah : option Z; t_bh : option Z; t_ch : option Z; t_aw : option Z; t_bw : option Z; t_cw : option Z;
  t_c00h : option Z; t_c10h : option Z; t_c01h : option Z; t_c00w : option Z; t_c10w : option Z; t_c01w : option Z; t_res : option tres }.
Definition opt (n : nat) (y : option Z) : bits := match n with O => [] | _ => field n y end.
Definition row_bits (n m : nat) (r : option Z * option Z) : bits := opt n (fst r) ++ opt m (snd r).
Definition tres_bits (r : tres) : bits :=
  bitsof 12 (s_ofst r) ++ bitsof 12 (Z.of_nat (length (s_rows r))) ++ bitsof 4 (Z.of_nat (s_n r)) ++ bitsof 4 (Z.of_nat (s_m r)) ++
  flat_map (row_bits (s_n r) (s_m r)) (s_rows r).
Definition trop_main (t : trop) (rmi : bool) : bits :=
  ahead_bits NONE (t_h t) ++ bitsof 10 (t_gid t) ++ [rmi] ++
  field 11 (t_ah t) ++ field 9 (t_bh t) ++ field 9 (t_ch t) ++ field 13 (t_aw t) ++ field 6 (t_bw t) ++ field 5 (t_cw t) ++
  field 13 (t_c00h t) ++ field 15 (t_c10h t) ++ field 15 (t_c01h t) ++ field 13 (t_c00w t) ++ field 15 (t_c10w t) ++ field 15 (t_c01w t).
Definition trop_message (t : trop) : bits :=
  bitsof 12 95 ++ match t_res t with None => trop_main t false | Some r => trop_main t true ++ tres_bits r end.
Definition tres_ok (r : tres) : Prop :=
  0 <= s_ofst r < 4096 /\ Z.of_nat (length (s_rows r)) < 4096 /\ (s_n r < 16)%nat /\ (s_m r < 16)%nat /\
  Forall (fun x => (s_n r = 0%nat \/ fits (s_n r) (fst x)) /\ (s_m r = 0%nat \/ fits (s_m r) (snd x))) (s_rows r).
Definition trop_ok (t : trop) : Prop :=
  head_ok false NONE (t_h t) /\ 0 <= t_gid t < 1024 /\
  (fits 11 (t_ah t) /\ fits 9 (t_bh t) /\ fits 9 (t_ch t) /\ fits 13 (t_aw t) /\ fits 6 (t_bw t) /\ fits 5 (t_cw t)) /\
  (fits 13 (t_c00h t) /\ fits 15 (t_c10h t) /\ fits 15 (t_c01h t) /\ fits 13 (t_c00w t) /\ fits 15 (t_c10w t) /\ fits 15 (t_c01w t)) /\
  match t_res t with None => True | Some r => tres_ok r end.
Definition up (c : Z) (y : option Z) : option Z := match y with Some v => Some (v + c) | None => None end.
(** the other networks are left alone *)
Definition others {A} (k : nat) (l l' : list A) : Prop := length l' = length l /\ forall j, j <> k -> nth_error l' j = nth_error l j.
(** what the message leaves: nominal values 0.00118, 0.00298, 0.0682 (steps 2.5e-7, 5e-6, 2e-4), 0.000104, 0.0015, 0.048
    (1e-6, 2.5e-5, 2e-3), 2.3 m and 0.252 m (0.1 mm); points before the first have residual zero *)
Definition trop_effect (t : trop) (r : tres) (st st' : ast) : Prop :=
  a_week st' = a_week st /\ a_time st' = gpst2time 1 (a_week st) (g_tow (t_h t)) /\ a_pid st' = g_pid (t_h t) /\ a_sid st' = g_sid (t_h t) /\
  a_iod st' = g_iod (t_h t) /\ a_rmi st' = true /\ (a_gid st', a_pmi st', a_pgi st') = (a_gid st, a_pmi st, a_pgi st) /\
  others (Z.to_nat (t_gid t)) (a_lc st) (a_lc st') /\
  exists o l, nth_error (a_lc st) (Z.to_nat (t_gid t)) = Some o /\ nth_error (a_lc st') (Z.to_nat (t_gid t)) = Some l /\
    l_maph l = [up 4720 (t_ah t); up 596 (t_bh t); up 341 (t_ch t)] /\ l_mapw l = [up 104 (t_aw t); up 60 (t_bw t); up 24 (t_cw t)] /\
    l_ct l = [up 23000 (t_c00h t); t_c01h t; t_c10h t; up 2520 (t_c00w t); t_c01w t; t_c10w t] /\
    l_dth l = (if (s_n r =? 0)%nat then None else Some (repeat (Some 0) (Z.to_nat (s_ofst r)) ++ map fst (s_rows r))) /\
    l_dtw l = (if (s_m r =? 0)%nat then None else Some (repeat (Some 0) (Z.to_nat (s_ofst r)) ++ map snd (s_rows r))) /\
    l_ng l = Z.of_nat (length (s_rows r)) /\ l_ofst l = s_ofst r /\
    (l_sat l, l_ci l, l_stype l, l_dstec l) = (l_sat o, l_ci o, l_stype o, l_dstec o).

(* ---------- ionosphere ---------- *)
(** a satellite: number, polynomial (c00, c01, c10), residuals of the points *)
Record isat := IS { i_prn : Z; i_c00 : option Z; i_c01 : option Z; i_c10 : option Z; i_res : list (option Z) }.
(** residual part: first point, number of points, width, scale exponent *)
Record ires := IR { r_ofst : Z; r_ng : nat; r_len : nat; r_sf : Z }.
(** [n_poly]: the polynomials are sent, and with gradients; satellites in the order of their numbers *)
Record iono := IO { n_h : hdr; n_gid : Z; n_poly : option bool; n_res : option ires; n_sats : list isat }.
Definition poly_bits (pgi : bool) (x : isat) : bits := field 17 (i_c00 x) ++ if pgi then field 18 (i_c01 x) ++ field 18 (i_c10 x) else [].
Definition slots (s : gnss) (l : list isat) : list Z := map (fun x => slot s (i_prn x)) l.
Definition iono_bits (s : gnss) (n : iono) : bits :=
  ahead_bits s (n_h n) ++ bitsof 10 (n_gid n) ++ [match n_poly n with Some _ => true | None => false end] ++
  [match n_res n with Some _ => true | None => false end] ++ mask_bits 1 64 (slots s (n_sats n)) ++
  match n_poly n with None => [] | Some pgi => [pgi] ++ flat_map (poly_bits pgi) (n_sats n) end ++
  match n_res n with
  | None => []
  | Some r => bitsof 12 (r_ofst r) ++ bitsof 12 (Z.of_nat (r_ng r)) ++ bitsof 5 (Z.of_nat (r_len r)) ++ bitsof 3 (r_sf r) ++
              flat_map (fun x => flat_map (field (r_len r)) (i_res x)) (n_sats n)
  end.
Definition iono_number (s : gnss) : option Z :=
  match s with GPS => Some 96 | GLO => Some 97 | GAL => Some 98 | BDS => Some 99 | QZS => Some 100 | _ => None end.
Definition iono_message (mt : Z) (s : gnss) (n : iono) : bits := bitsof 12 mt ++ iono_bits s n.
Definition iono_ok (s : gnss) (n : iono) : Prop :=
  head_ok false s (n_h n) /\ 0 <= n_gid n < 1024 /\ StronglySorted Z.lt (slots s (n_sats n)) /\
  Forall (fun x => owns s (i_prn x) /\ slot s (i_prn x) <= 64 /\
    (n_poly n <> None -> fits 17 (i_c00 x)) /\ (n_poly n = Some true -> fits 18 (i_c01 x) /\ fits 18 (i_c10 x))) (n_sats n) /\
  match n_res n with
  | None => True
  | Some r => 0 <= r_ofst r < 4096 /\ Z.of_nat (r_ng r) < 4096 /\ (1 <= r_len r < 32)%nat /\ 0 <= r_sf r < 8 /\
              Forall (fun x => length (i_res x) = r_ng r /\ Forall (fits (r_len r)) (i_res x)) (n_sats n)
  end.
(** a dictionary with exactly these entries *)
Definition exactly {V} (s : gnss) (val : isat -> V) (l : list isat) (d : dict Z V) : Prop :=
  (forall x, In x l -> zget (prn2sat s (i_prn x)) d = Some (val x)) /\
  (forall sat, ~ In sat (map (fun x => prn2sat s (i_prn x)) l) -> zget sat d = None).
(** a residual in steps of 0.001 *)
Definition scaled (sf : Z) (y : option Z) : option Z := match y with Some v => Some (v * 2 ^ sf) | None => None end.
Definition iono_effect (s : gnss) (n : iono) (st st' : ast) : Prop :=
  a_week st' = a_week st /\ a_time st' = msg_time false (a_week st) (a_time st) s (g_tow (n_h n)) /\ a_pid st' = g_pid (n_h n) /\
  a_sid st' = g_sid (n_h n) /\ a_iod st' = a_iod st /\ a_gid st' = n_gid n /\
  a_pmi st' = (match n_poly n with Some _ => true | None => false end) /\ a_rmi st' = (match n_res n with Some _ => true | None => false end) /\
  a_pgi st' = (match n_poly n with Some g => g | None => a_pgi st end) /\
  others (Z.to_nat (n_gid n)) (a_lc st) (a_lc st') /\
  exists o l, nth_error (a_lc st) (Z.to_nat (n_gid n)) = Some o /\ nth_error (a_lc st') (Z.to_nat (n_gid n)) = Some l /\
    l_sat l = map (fun x => prn2sat s (i_prn x)) (n_sats n) /\
    (match n_poly n with
     | None => l_ci l = l_ci o /\ l_stype l = l_stype o
     | Some g => exactly s (fun x => if g then [i_c00 x; i_c01 x; i_c10 x] else [i_c00 x]) (n_sats n) (l_ci l) /\
                 exactly s (fun _ => if g then 1 else 0) (n_sats n) (l_stype l)
     end) /\
    (match n_res n with
     | None => l_dstec l = l_dstec o /\ l_ng l = l_ng o /\ l_ofst l = l_ofst o
     | Some r => exactly s (fun x => repeat (Some 0) (Z.to_nat (r_ofst r)) ++ map (scaled (r_sf r)) (i_res x)) (n_sats n) (l_dstec l) /\
                 l_ng l = Z.of_nat (r_ng r) /\ l_ofst l = r_ofst r
     end) /\
    (l_ct l, l_maph l, l_mapw l, l_dth l, l_dtw l) = (l_ct o, l_maph o, l_mapw o, l_dth o, l_dtw o).

(* ---------- what is given to the encoder ---------- *)
Definition ahead (e : east) : hdr := HDR (ea_tow e) (ea_udi e) (ea_mi e) 0 (ea_iod e) (ea_pid e) (ea_sid e).
(** the attributes hold the values of the message; residuals are sent *)
Definition trop_given (e : east) (t : trop) (r : tres) : Prop :=
  ea_mt e = 95 /\ ahead e = t_h t /\ ea_gid e = t_gid t /\ Z.odd (ea_ftrop e) = true /\
  ea_maph e = [up 4720 (t_ah t); up 596 (t_bh t); up 341 (t_ch t)] /\ ea_mapw e = [up 104 (t_aw t); up 60 (t_bw t); up 24 (t_cw t)] /\
  ea_ct e = [up 23000 (t_c00h t); t_c01h t; t_c10h t; up 2520 (t_c00w t); t_c01w t; t_c10w t] /\
  ea_nlen e = s_n r /\ ea_mlen e = s_m r /\ ea_ofst e = s_ofst r /\ ea_ng e = Z.of_nat (length (s_rows r)) /\
  (s_n r = 0%nat \/ firstn (length (s_rows r)) (skipn (Z.to_nat (s_ofst r)) (ea_dth e)) = map fst (s_rows r)) /\
  (s_m r = 0%nat \/ firstn (length (s_rows r)) (skipn (Z.to_nat (s_ofst r)) (ea_dtw e)) = map snd (s_rows r)).
(** the polynomials of the constellation's satellites, listed in the order of their numbers; no residuals *)
Definition iono_given (e : east) (s : gnss) (n : iono) (pgi : bool) : Prop :=
  iono_number s = Some (ea_mt e) /\ ahead e = n_h n /\ ea_gid e = n_gid n /\ Z.odd (ea_fstec e) = false /\ Z.odd (ea_fstec e / 2) = true /\
  n_poly n = Some pgi /\ n_res n = None /\
  Forall2 (fun x y => fst x = prn2sat s (i_prn y) /\ nth_error (snd x) 0 = Some (i_c00 y) /\
      (pgi = true -> nth_error (snd x) 1 = Some (i_c01 y) /\ nth_error (snd x) 2 = Some (i_c10 y)) /\
      exists t, zget (fst x) (ea_stype e) = Some t /\ 0 <= t /\ (pgi = false -> t = 0))
    (filter (fun x => gnss_eqb (fst (sat2prn (fst x))) s) (ea_ci e)) (n_sats n) /\
  (pgi = true -> exists y t, In y (n_sats n) /\ zget (prn2sat s (i_prn y)) (ea_stype e) = Some t /\ 0 < t).

(* ---------- grid ---------- *)
(** type 0: reference point (latitude, longitude, height), first number, steps to the next point; type 1: without heights *)
Record grid := GR { d_pid : Z; d_mi : bool; d_gid : Z; d_ref : option Z * option Z * Z; d_ofst : Z; d_steps : list (option Z * option Z * option Z) }.
Definition step_bits (ty : Z) (x : option Z * option Z * option Z) : bits :=
  let '(a, b, c) := x in field 13 a ++ field 14 b ++ if ty =? 0 then field 9 c else [].
Definition grid_message (ty : Z) (g : grid) : bits :=
  let '(lat, lon, alt) := d_ref g in
  bitsof 12 61 ++ bitsof 16 (d_pid g) ++ [d_mi g] ++ bitsof 10 (d_gid g) ++ bitsof 3 ty ++ field 18 lat ++ field 19 lon ++
  (if ty =? 0 then bitsof 10 alt else []) ++ bitsof 12 (d_ofst g) ++ bitsof 8 (Z.of_nat (length (d_steps g))) ++ flat_map (step_bits ty) (d_steps g).
Definition grid_ok (ty : Z) (g : grid) : Prop :=
  let '(lat, lon, alt) := d_ref g in
  0 <= d_pid g < 65536 /\ 0 <= d_gid g < 1024 /\ fits 18 lat /\ fits 19 lon /\ 0 <= alt < 1024 /\ 0 <= d_ofst g < 4096 /\
  Z.of_nat (length (d_steps g)) < 256 /\
  Forall (fun x => let '(a, b, c) := x in fits 13 a /\ fits 14 b /\ (ty = 0 -> fits 9 c)) (d_steps g).
(** the sum of a list of values, NaN as soon as one is NaN *)
Fixpoint total (l : list (option Z)) : option Z :=
  match l with [] => Some 0 | None :: _ => None | Some x :: l => match total l with Some y => Some (x + y) | None => None end end.
(** point [k] lies [k] steps from the reference *)
Definition pos_of (sel : option Z * option Z * option Z -> option Z) (ref : option Z) (g : grid) (k : nat) : option Z :=
  total (ref :: map sel (firstn k (d_steps g))).
Definition lat_of (x : option Z * option Z * option Z) : option Z := fst (fst x).
Definition lon_of (x : option Z * option Z * option Z) : option Z := snd (fst x).
Definition alt_of (x : option Z * option Z * option Z) : option Z := snd x.
(** type 0: heights are steps of 12.5 m above -1000 m; the points are numbered from the first number on *)
Definition grid_effect (ty : Z) (g : grid) (st' : gst) : Prop :=
  let '(lat, lon, alt) := d_ref g in
  gs_pid st' = d_pid g /\ gs_mi st' = d_mi g /\ gs_gid st' = d_gid g /\ gs_inet st' = d_gid g /\ gs_type st' = ty /\ gs_ofst st' = d_ofst g /\
  gs_pos0 st' = (lat, lon, Some (if ty =? 0 then alt - 80 else 0)) /\
  length (gs_grid st') = S (length (d_steps g)) /\
  (forall k p, nth_error (gs_grid st') k = Some p -> gp_nid p = d_gid g /\
     gp_lat p = pos_of lat_of lat g k /\ gp_lon p = pos_of lon_of lon g k /\
     gp_alt p = (if ty =? 0 then pos_of alt_of (Some (alt - 80)) g k else Some 0)).
Definition numbered (g : grid) (st' : gst) : Prop := forall k p, nth_error (gs_grid st') k = Some p -> gp_id p = d_ofst g + Z.of_nat k.
Definition steps_kept (ty : Z) (g : grid) (st' : gst) : Prop :=
  gs_dpos st' = map (fun x => let '(a, b, c) := x in (a, b, if ty =? 0 then c else Some 0)) (d_steps g).
