(** Minimum and SSR integrity messages as bit strings, and what they do to the decoder, stated without the codec. *)
From Verif Require Import SatModel SatSpec TimeModel CssrState RtcmFrame RtcmFrameSpec RtcmSsr RtcmSsrSpec MsmSpec RIntModel Base.
From Coq Require Import Sorted.
Notation length := List.length.
Open Scope Z_scope.

(** header: time (ms), provider, validity period (index), update interval, service area (not in message 2000) *)
Record ihd := IH { g_tow : Z; g_pid : Z; g_vp : Z; g_udi : Z; g_aid : Z }.
Definition ihead_bits (mt : Z) (h : ihd) : bits :=
  bitsof 30 (g_tow h) ++ bitsof 12 (g_pid h) ++ bitsof 4 (g_vp h) ++ bitsof 16 (g_udi h) ++ if mt =? 2000 then [] else bitsof 10 (g_aid h).
Definition ihead_ok (h : ihd) : Prop :=
  0 <= g_tow h < 2 ^ 30 /\ 0 <= g_pid h < 4096 /\ 0 <= g_vp h < 16 /\ 0 <= g_udi h < 65536 /\ 0 <= g_aid h < 1024.
(** seconds *)
Definition validity (k : Z) : Z :=
  match k with 0 => 1 | 1 => 2 | 2 => 5 | 3 => 10 | 4 => 15 | 5 => 30 | 6 => 60 | 7 => 120 | 8 => 240 | 9 => 300 | 10 => 600 | 11 => 900 | 12 => 1800
             | 13 => 3600 | 14 => 7200 | _ => 10800 end.
(** number of a constellation *)
Definition number (s : gnss) : option Z := match s with GPS => Some 0 | GLO => Some 1 | GAL => Some 2 | BDS => Some 3 | QZS => Some 4 | IRN => Some 5 | _ => None end.
Definition numbers (l : list gnss) : list Z := flat_map (fun s => match number s with Some k => [k] | None => [] end) l.
(** the constellations, in the order of their numbers *)
Definition cons_ok (l : list gnss) : Prop := StronglySorted Z.lt (numbers l) /\ Forall (fun s => number s <> None) l.
(** the satellites, in the order of their numbers *)
Definition sats_ok (s : gnss) (l : list Z) : Prop := StronglySorted Z.lt (map (slot s) l) /\ Forall (fun prn => owns s prn /\ slot s prn <= 64) l.

(* ---------- SSR integrity ---------- *)
(** a constellation: issue of its mask, satellites with their flags *)
Record fcon := FC { f_sys : gnss; f_iod : Z; f_sats : list (Z * Z) }.
Record issr := SI { s_h : ihd; s_pid : Z; s_sid : Z; s_iod : Z; s_cons : list fcon }.
Definition fcon_bits (c : fcon) : bits := mask_bits 1 64 (map (slot (f_sys c)) (map fst (f_sats c))) ++ bitsof 2 (f_iod c) ++ flat_map (fun x => bitsof 2 (snd x)) (f_sats c).
Definition issr_message (mt : Z) (n : issr) : bits :=
  bitsof 12 mt ++ ihead_bits mt (s_h n) ++ bitsof 16 (s_pid n) ++ bitsof 4 (s_sid n) ++ bitsof 4 (s_iod n) ++ mask_bits 0 16 (numbers (map f_sys (s_cons n))) ++
  flat_map fcon_bits (s_cons n).
Definition issr_ok (n : issr) : Prop :=
  ihead_ok (s_h n) /\ 0 <= s_pid n < 65536 /\ 0 <= s_sid n < 16 /\ 0 <= s_iod n < 16 /\ cons_ok (map f_sys (s_cons n)) /\
  Forall (fun c => 0 <= f_iod c < 4 /\ sats_ok (f_sys c) (map fst (f_sats c)) /\ Forall (fun x => 0 <= snd x < 4) (f_sats c)) (s_cons n).
Definition head_after (mt : Z) (h : ihd) (st st' : ist) : Prop :=
  i_week st' = i_week st /\ i_time st' = gpst2time 1000 (i_week st) (g_tow h) /\ i_tow st' = g_tow h /\ i_pid st' = g_pid h /\
  i_vp st' = validity (g_vp h) /\ i_udi st' = g_udi h /\ i_aid st' = (if mt =? 2000 then i_aid st else g_aid h).
(** flag 1 = do not use *)
Definition issr_effect (mt : Z) (n : issr) (st st' : ist) : Prop :=
  head_after mt (s_h n) st st' /\ i_pidssr st' = s_pid n /\ i_sidssr st' = s_sid n /\ i_iodssr st' = s_iod n /\
  i_iods st' = map (fun c => (f_sys c, f_iod c)) (s_cons n) /\
  i_flag st' = map (fun c => (f_sys c, map (fun x => (prn2sat (f_sys c) (fst x), snd x)) (f_sats c))) (s_cons n) /\
  (forall s, In s (i_sat_e st') <-> exists c x, In c (s_cons n) /\ In x (f_sats c) /\ snd x = 1 /\ s = prn2sat (f_sys c) (fst x)) /\
  NoDup (i_sat_e st') /\ i_min st' = i_min st.

(* ---------- minimum integrity ---------- *)
(** a satellite: frequencies, issue of their mask, integrity and monitoring status of the frequencies *)
Record msat := MS { m_prn : Z; m_freq : list Z; m_iod : Z; m_ists : Z; m_msts : Z }.
(** a constellation: satellite integrity status, satellites monitored, fault source *)
Record mcon := MC { c_sys : gnss; c_iod : Z; c_sts : Z; c_mon : list Z; c_src : Z; c_sats : list msat }.
Record mint := MI { n_h : ihd; n_integ : Z; n_stat : Z; n_cons : list mcon }.
Definition msat_bits (x : msat) : bits := mask_bits 0 8 (m_freq x) ++ bitsof 2 (m_iod x) ++ bitsof 8 (m_ists x) ++ bitsof 8 (m_msts x).
Definition mcon_bits (c : mcon) : bits :=
  mask_bits 1 64 (map (slot (c_sys c)) (map m_prn (c_sats c))) ++ bitsof 2 (c_iod c) ++ bitsof 64 (c_sts c) ++ mask_bits 1 64 (map (slot (c_sys c)) (c_mon c)) ++
  bitsof 3 (c_src c) ++ flat_map msat_bits (c_sats c).
Definition mint_message (mt : Z) (n : mint) : bits :=
  bitsof 12 mt ++ ihead_bits mt (n_h n) ++ mask_bits 0 16 (numbers (map c_sys (n_cons n))) ++ bitsof 16 (n_integ n) ++ bitsof 16 (n_stat n) ++
  flat_map mcon_bits (n_cons n).
Definition mint_ok (n : mint) : Prop :=
  ihead_ok (n_h n) /\ 0 <= n_integ n < 65536 /\ 0 <= n_stat n < 65536 /\ cons_ok (map c_sys (n_cons n)) /\
  Forall (fun c => 0 <= c_iod c < 4 /\ 0 <= c_sts c < 2 ^ 64 /\ 0 <= c_src c < 8 /\ sats_ok (c_sys c) (map m_prn (c_sats c)) /\ sats_ok (c_sys c) (c_mon c) /\
    Forall (fun x => StronglySorted Z.lt (m_freq x) /\ Forall (fun f => 0 <= f < 8) (m_freq x) /\ 0 <= m_iod x < 4 /\ 0 <= m_ists x < 256 /\ 0 <= m_msts x < 256)
      (c_sats c)) (n_cons n).
Definition mint_effect (mt : Z) (n : mint) (st st' : ist) : Prop :=
  head_after mt (n_h n) st st' /\
  (if (length (n_cons n) =? 0)%nat then i_iods st' = i_iods st /\ i_min st' = i_min st else
   i_iods st' = map (fun c => (c_sys c, c_iod c)) (n_cons n) /\
   i_min st' = map (fun c => (c_sys c, CR (c_sts c) (c_mon c) (c_src c)
      (map (fun x => (prn2sat (c_sys c) (m_prn x), SR (m_freq x) (m_iod x) (m_ists x) (m_msts x))) (c_sats c)))) (n_cons n)) /\
  (i_pidssr st', i_sidssr st', i_iodssr st', i_flag st', i_sat_e st') = (i_pidssr st, i_sidssr st, i_iodssr st, i_flag st, i_sat_e st).
