(** RTCM multiple signal messages: layout and meaning, independent of the decoder's loops.
    Units as in MsmModel.v: distances c * 1 ms * 2^-31, times in ms, strengths 1/16 dB. *)
From Verif Require Export TimeModel TimeSpec SigModel CssrState RtcmFrameSpec RtcmSsrSpec SatModel SatSpec Base.
From Coq Require Export Sorting.Sorted.
Open Scope Z_scope.
Notation length := List.length.

(** fields of one signal of one satellite; [None] = not available *)
Record cell := CELL { c_pr : option Z; c_cp : option Z; c_lock : Z; c_half : Z; c_cnr : Z; c_rate : option Z }.
(** one satellite: PRN, rough range (integer part in ms, fraction in 2^-10 ms), extended information, rough rate, and
    one entry per signal of the message *)
Record sv := SV { v_prn : Z; v_ms : option Z; v_frac : Z; v_ex : Z; v_rate : option Z; v_cells : list (option cell) }.
Record mhead := MH { h_ref : Z; h_tow : Z; h_mi : Z; h_iods : Z; h_res : Z; h_clk : Z }.

(** PRN of the first bit of the satellite mask *)
Definition first (s : gnss) : Z := match s with QZS => 193 | SBS => 120 | _ => 1 end.
Definition mask_bits (o : Z) (n : nat) (l : list Z) : bits := map (fun k => existsb (Z.eqb (o + Z.of_nat k)) l) (seq 0 n).
Definition present (v : sv) : list cell := flat_map (fun o => match o with Some c => [c] | None => [] end) (v_cells v).
Definition column {A} (f : A -> bits) (l : list A) : bits := flat_map f l.
Definition unum (n : nat) (y : option Z) : bits := match y with Some v => bitsof n v | None => repeat true n end.

(** field widths of the seven message variants: pseudorange, phase, lock time, strength, rate; 0 = absent *)
Definition widths (msm : Z) : nat * nat * nat * nat * nat :=
  match msm with
  | 1 => (15, 0, 0, 0, 0)%nat | 2 => (0, 22, 4, 0, 0)%nat | 3 => (15, 22, 4, 0, 0)%nat | 4 => (15, 22, 4, 6, 0)%nat
  | 5 => (15, 22, 4, 6, 15)%nat | 6 => (20, 24, 10, 10, 0)%nat | 7 => (20, 24, 10, 10, 15)%nat | _ => (0, 0, 0, 0, 0)%nat
  end.
Definition extended (msm : Z) : Prop := msm = 5 \/ msm = 7.
Definition sat_fields (msm : Z) (vs : list sv) : bits :=
  match msm with
  | 1 | 2 | 3 => column (fun v => unum 10 (v_ms v)) vs
  | 4 | 6 => column (fun v => unum 8 (v_ms v)) vs ++ column (fun v => bitsof 10 (v_frac v)) vs
  | _ => column (fun v => unum 8 (v_ms v)) vs ++ column (fun v => bitsof 4 (v_ex v)) vs ++
         column (fun v => bitsof 10 (v_frac v)) vs ++ column (fun v => field 14 (v_rate v)) vs
  end.
Definition sfield (n : nat) (y : option Z) : bits := match n with O => [] | _ => field n y end.
Definition sig_fields (msm : Z) (cs : list cell) : bits :=
  let '(p, l, t, s, d) := widths msm in
  column (fun c => sfield p (c_pr c)) cs ++ column (fun c => sfield l (c_cp c)) cs ++ column (fun c => bitsof t (c_lock c)) cs ++
  column (fun c => match l with O => [] | _ => bitsof 1 (c_half c) end) cs ++
  column (fun c => bitsof s (c_cnr c)) cs ++ column (fun c => sfield d (c_rate c)) cs.
Definition msm_message (msm : Z) (s : gnss) (h : mhead) (sigs : list Z) (vs : list sv) : bits :=
  bitsof 12 (h_ref h) ++ bitsof 30 (h_tow h) ++ bitsof 1 (h_mi h) ++ bitsof 3 (h_iods h) ++ bitsof 7 (h_res h) ++ bitsof 8 (h_clk h) ++
  mask_bits (first s) 64 (map v_prn vs) ++ mask_bits 1 32 sigs ++
  column (fun v => map (fun o => match o with Some _ => true | None => false end) (v_cells v)) vs ++
  sat_fields msm vs ++ sig_fields msm (flat_map present vs).

(* ---------- admissible messages ---------- *)
Definition ubits (n : nat) (y : Z) : Prop := 0 <= y < 2 ^ Z.of_nat n.
Definition sbits (n : nat) (y : option Z) : Prop := match n with O => True | _ => fits n y end.
Definition cell_ok (msm : Z) (c : cell) : Prop :=
  let '(p, l, t, s, d) := widths msm in
  sbits p (c_pr c) /\ sbits l (c_cp c) /\ (t <> O -> ubits t (c_lock c)) /\ (l <> O -> ubits 1 (c_half c)) /\
  (s <> O -> ubits s (c_cnr c)) /\ sbits d (c_rate c).
Definition sv_ok (msm : Z) (s : gnss) (n : nat) (v : sv) : Prop :=
  first s <= v_prn v < first s + 64 /\ length (v_cells v) = n /\ Forall (cell_ok msm) (present v) /\
  (forall m, v_ms v = Some m -> 0 <= m < (if msm <? 4 then 1023 else 255)) /\
  ubits 10 (v_frac v) /\ ubits 4 (v_ex v) /\ fits 14 (v_rate v).
Definition head_fits (h : mhead) : Prop :=
  ubits 12 (h_ref h) /\ ubits 30 (h_tow h) /\ ubits 1 (h_mi h) /\ ubits 3 (h_iods h) /\ ubits 7 (h_res h) /\ ubits 8 (h_clk h).
(** [qs]: the signals of the mask as observation codes *)
Definition names (s : gnss) (sigs : list Z) (qs : list rsig) : Prop := Forall2 (fun k q => msm2rsig s TC k = Some q) sigs qs.
(** every observed signal has a carrier frequency *)
Definition has_freq (qs : list rsig) (v : sv) : Prop :=
  Forall2 (fun q o => match o with Some _ => frequency q (Some 0) <> None | None => True end) qs (v_cells v).
Definition msm_ok (msm : Z) (s : gnss) (h : mhead) (sigs : list Z) (qs : list rsig) (vs : list sv) : Prop :=
  1 <= msm <= 7 /\ head_fits h /\ StronglySorted Z.lt sigs /\ Forall (fun k => 1 <= k <= 32) sigs /\ names s sigs qs /\
  StronglySorted Z.lt (map v_prn vs) /\ Forall (sv_ok msm s (length sigs)) vs /\ Forall (has_freq qs) vs /\
  (length vs * length sigs <= 64)%nat /\ (vs <> [] -> sigs <> []).

(* ---------- meaning ---------- *)
(** rough range, where the message gives one.  For variants 1 to 3 the unit of the 10-bit field is the one the decoder
    uses (1 ms); whether the standard means fractions of a millisecond there is not settled by this model. *)
Definition rough (msm : Z) (v : sv) : option Z :=
  match v_ms v with Some m => Some (if msm <? 4 then m * 2 ^ 31 else m * 2 ^ 31 + v_frac v * 2 ^ 21) | None => None end.
Definition sum (x y : option Z) : option Z := match x, y with Some a, Some b => Some (a + b) | _, _ => None end.
Definition times (k : Z) (x : option Z) : option Z := match x with Some a => Some (k * a) | None => None end.
(** resolutions: 15-bit fields 2^-24 ms, 20- and 22-bit fields 2^-29 ms, 24-bit fields 2^-31 ms *)
Definition unit_of (n : nat) : Z := match n with 15%nat => 2 ^ 7 | 20%nat | 22%nat => 2 ^ 2 | _ => 1 end.
Definition pseudorange (msm : Z) (v : sv) (o : option cell) : option Z :=
  let '(p, _, _, _, _) := widths msm in
  match o with
  | None => Some 0
  | Some c => match p with O => None | _ => sum (rough msm v) (times (unit_of p) (c_pr c)) end
  end.
Definition phase (msm : Z) (v : sv) (q : rsig) (o : option cell) : option Z :=
  let '(_, l, _, _, _) := widths msm in
  match o with
  | None => Some 0
  | Some c => match l, frequency q (Some (v_ex v - 7)) with
              | O, _ | _, None => None
              | _, Some f => times f (sum (rough msm v) (times (unit_of l) (c_cp c)))
              end
  end.
Definition strength (msm : Z) (o : option cell) : Z :=
  match o with None => 0 | Some c => match msm with 4 | 5 => 16 * c_cnr c | 6 | 7 => c_cnr c | _ => 0 end end.
Definition lock_time (msm : Z) (o : option cell) : Z :=
  match o with None => 0 | Some c => match msm with 1 => 0 | _ => c_lock c end end.
(** the integer part of the range is given, and is not zero (no satellite is closer than 300 km) *)
Definition range_known (msm : Z) (v : sv) : Prop := exists m, v_ms v = Some m /\ (4 <= msm -> 0 < m).
Fixpoint map2 {A B C} (f : A -> B -> C) (l : list A) (m : list B) : list C :=
  match l, m with a :: l, b :: m => f a b :: map2 f l m | _, _ => [] end.
(** GLONASS phases need the frequency channel, which only the extended information carries *)
Definition channel_known (msm : Z) (s : gnss) (v : sv) : Prop := s <> GLO \/ (extended msm /\ v_ex v <= 13).
(** milliseconds of a GPS week and time of week *)
Definition gps_ms (week tow : Z) : Z := 1000 * (86400 * day_number 1980 1 6 + 604800 * week) + tow.
(** the epoch, as milliseconds.  GPS-like constellations send the GPS time of week, BeiDou its own time of week, GLONASS
    a day of the week and a Moscow time of day. *)
Definition epoch_ms (s : gnss) (week tow : Z) : Z :=
  match s with
  | GLO => let u := gps_ms week (86400000 * (tow / 2 ^ 27) + tow mod 2 ^ 27) - 3 * 3600000 in u + 1000 * leap_count 1000 u
  | BDS => gps_ms week tow + 14000
  | _ => gps_ms week tow
  end.
