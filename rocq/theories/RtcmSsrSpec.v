(** RTCM state space messages as bit strings, stated without the codec. *)
From Verif Require Import SatModel RtcmFrameSpec SatSpec RtcmFrame Base.
Open Scope Z_scope.

(** message numbers: the published ones, the GLONASS numbers 41.. and the numbers 62..79 that run through
    Galileo, BeiDou and QZSS for each kind *)
Definition carries (mt : Z) (s : gnss) (c : sct) : Prop :=
  ssr_number mt s c \/
  (exists o, ssr_order c = Some o /\ s = GLO /\ mt = 41 + o) \/
  (exists o k, ssr_order c = Some o /\ mt = 62 + 3 * o + k /\
     ((k = 0 /\ s = GAL) \/ (k = 1 /\ s = BDS) \/ (k = 2 /\ s = QZS))).
(** IGS SSR (number 4076): subtype = 10 * (constellation) + kind *)
Definition igs_sub (s : gnss) (c : sct) : option Z :=
  match match s with GPS => Some 20 | GLO => Some 40 | GAL => Some 60 | QZS => Some 80 | BDS => Some 100 | SBS => Some 120 | _ => None end,
        match c with SORB => Some 1 | SCLK => Some 2 | SOC => Some 3 | SHCLK => Some 4 | SURA => Some 7 | _ => None end with
  | Some a, Some b => Some (a + b)
  | _, _ => None
  end.

(** a signed field; the most negative pattern means "not available" *)
Definition field (n : nat) (y : option Z) : bits :=
  match y with None => true :: repeat false (n - 1) | Some v => bitsof n v end.
Definition fits (n : nat) (y : option Z) : Prop :=
  match y with None => True | Some v => - 2 ^ (Z.of_nat n - 1) < v < 2 ^ (Z.of_nat n - 1) end.

(** corrections of one satellite: orbit and rates, clock polynomial, high-rate clock, accuracy class and value *)
Record ent := ENT { n_prn : Z; n_iode : Z; n_d : option Z * option Z * option Z; n_dd : option Z * option Z * option Z;
                    n_c : option Z * option Z * option Z; n_h : option Z; n_q : Z * Z }.
Definition slot (s : gnss) (prn : Z) : Z := match s with QZS => prn - 192 | SBS => prn - 119 | _ => prn end.
Definition slot_len (igs : bool) (s : gnss) : nat := if igs then 6 else match s with GLO => 5 | QZS => 4 | _ => 6 end.
Definition iode_len (igs : bool) (s : gnss) : nat := if igs then 8 else match s with GAL => 10 | SBS => 24 | _ => 8 end.

Definition orbit_bits (igs : bool) (s : gnss) (e : ent) : bits :=
  let '(x, y, z) := n_d e in let '(vx, vy, vz) := n_dd e in
  bitsof (iode_len igs s) (n_iode e) ++ field 22 x ++ field 20 y ++ field 20 z ++ field 21 vx ++ field 19 vy ++ field 19 vz.
Definition clock_bits (e : ent) : bits := let '(a, b, c) := n_c e in field 22 a ++ field 21 b ++ field 27 c.
Definition body_bits (igs : bool) (s : gnss) (c : sct) (e : ent) : bits :=
  match c with
  | SORB => orbit_bits igs s e
  | SCLK => clock_bits e
  | SOC => orbit_bits igs s e ++ clock_bits e
  | SURA => bitsof 3 (fst (n_q e)) ++ bitsof 3 (snd (n_q e))
  | SHCLK => field 22 (n_h e)
  | _ => []
  end.
Definition sat_bits (igs : bool) (s : gnss) (c : sct) (e : ent) : bits :=
  bitsof (slot_len igs s) (slot s (n_prn e)) ++ body_bits igs s c e.

Record hdr := HDR { g_tow : Z; g_udi : Z; g_mi : bool; g_datum : Z; g_iod : Z; g_pid : Z; g_sid : Z }.
Definition tow_len (igs : bool) (s : gnss) : nat := if igs then 20 else match s with GLO => 17 | _ => 20 end.
Definition has_datum (c : sct) : bool := match c with SORB | SOC => true | _ => false end.
Definition head_bits (igs : bool) (s : gnss) (c : sct) (h : hdr) (n : nat) : bits :=
  bitsof (tow_len igs s) (g_tow h) ++ bitsof 4 (g_udi h) ++ [g_mi h] ++
  (if has_datum c then bitsof 1 (g_datum h) else []) ++
  bitsof 4 (g_iod h) ++ bitsof 16 (g_pid h) ++ bitsof 4 (g_sid h) ++ bitsof 6 (Z.of_nat n).
Definition corr_bits (igs : bool) (s : gnss) (c : sct) (h : hdr) (es : list ent) : bits :=
  head_bits igs s c h (length es) ++ flat_map (sat_bits igs s c) es.
(** the message after the 24-bit frame header *)
Definition message (mt : Z) (s : gnss) (c : sct) (h : hdr) (es : list ent) : bits :=
  bitsof 12 mt ++ corr_bits false s c h es.
Definition igs_message (ver sub : Z) (s : gnss) (c : sct) (h : hdr) (es : list ent) : bits :=
  bitsof 12 4076 ++ bitsof 3 ver ++ bitsof 8 sub ++ corr_bits true s c h es.

(* ---------- what fits ---------- *)
Definition fits3 (a b c : nat) (v : option Z * option Z * option Z) : Prop :=
  let '(x, y, z) := v in fits a x /\ fits b y /\ fits c z.
Definition orbit_ok (igs : bool) (s : gnss) (e : ent) : Prop :=
  0 <= n_iode e < 2 ^ Z.of_nat (iode_len igs s) /\ fits3 22 20 20 (n_d e) /\ fits3 21 19 19 (n_dd e).
Definition clock_ok (e : ent) : Prop := fits3 22 21 27 (n_c e).
Definition body_ok (igs : bool) (s : gnss) (c : sct) (e : ent) : Prop :=
  match c with
  | SORB => orbit_ok igs s e
  | SCLK => clock_ok e
  | SOC => orbit_ok igs s e /\ clock_ok e
  | SURA => 0 <= fst (n_q e) < 8 /\ 0 <= snd (n_q e) < 8
  | SHCLK => fits 22 (n_h e)
  | _ => False
  end.
Definition sat_ok (igs : bool) (s : gnss) (c : sct) (e : ent) : Prop :=
  owns s (n_prn e) /\ slot s (n_prn e) < 2 ^ Z.of_nat (slot_len igs s) /\ body_ok igs s c e.
Definition head_ok (igs : bool) (s : gnss) (h : hdr) : Prop :=
  0 <= g_tow h < 2 ^ Z.of_nat (tow_len igs s) /\ 0 <= g_udi h < 16 /\ 0 <= g_datum h < 2 /\
  0 <= g_iod h < 16 /\ 0 <= g_pid h < 65536 /\ 0 <= g_sid h < 16.

(* ---------- what a message does to the decoder ---------- *)
From Verif Require Import TimeModel CssrState RtcmSsr Base.
(** the time tag of a message *)
Definition msg_time (igs : bool) (week : Z) (now : gtime) (s : gnss) (tow : Z) : gtime :=
  if igs then gpst2time 1 week tow
  else match s with GLO => utc2gpst 1 (glo2time 1 now tow) | _ => gpst2time 1 week tow end.

(** what the dictionary holds after the message *)
Definition holds {V} (s : gnss) (es : list ent) (f : ent -> V) (old : dict Z V) (d : dict Z V) : Prop :=
  (forall e, In e es -> zget (prn2sat s (n_prn e)) d = Some (f e)) /\
  (forall sat, ~ In sat (map (fun e => prn2sat s (n_prn e)) es) -> zget sat d = zget sat old).
Section Effect.
Context {Q : Type} (q_of : Z -> Z -> Q).
Notation rst := (@rst Q).
(** fields common to all messages *)
Definition head_in (c : sct) (t : gtime) (h : hdr) (st st' : rst) : Prop :=
  r_week st' = r_week st /\ r_time st' = t /\ r_pid st' = g_pid h /\ r_sid st' = g_sid h /\ r_iodssr st' = g_iod h /\
  r_mi st' = g_mi h /\ r_datum st' = (if has_datum c then g_datum h else r_datum st).
(** udi, iodssr_c, t0s, t0 and status of a correction type, the others unchanged *)
Definition tagged (cs cts : list sct) (t : gtime) (h : hdr) (ss : list Z) (st st' : rst) : Prop :=
  (forall c, In c cs -> r_udi st' c = g_udi h /\ r_iodc st' c = g_iod h /\ In c (r_cstat st') /\
     (forall sat, In sat ss -> r_t0 st' sat c = t) /\ (forall sat, ~ In sat ss -> r_t0 st' sat c = r_t0 st sat c)) /\
  (forall c, ~ In c cs -> r_udi st' c = r_udi st c /\ r_iodc st' c = r_iodc st c /\
     (In c (r_cstat st') <-> In c (r_cstat st)) /\ (forall sat, r_t0 st' sat c = r_t0 st sat c)) /\
  (forall c, In c cts -> r_t0s st' c = t) /\ (forall c, ~ In c cts -> r_t0s st' c = r_t0s st c).

Definition sats_of (s : gnss) (es : list ent) : list Z := map (fun e => prn2sat s (n_prn e)) es.
Definition keep {A} (new : bool) (l : list A) : list A := if new then [] else l.

Definition effect (c : sct) (s : gnss) (t : gtime) (h : hdr) (es : list ent) (st st' : rst) : Prop :=
  head_in c t h st st' /\
  match c with
  | SORB =>
      let new := timediff 1 t (r_t0s st SORB) >? 0 in
      tagged [SORB] [SORB] t h (sats_of s es) st st' /\
      r_sat_n st' = keep new (r_sat_n st) ++ sats_of s es /\
      r_sys_n st' = keep new (r_sys_n st) ++ map (fun _ => s) es /\
      r_nsat_n st' = (if new then 0 else r_nsat_n st) + Z.of_nat (length es) /\
      holds s es n_iode (keep new (r_iode st)) (r_iode st') /\
      holds s es n_d (keep new (r_dorb st)) (r_dorb st') /\
      holds s es n_dd (keep new (r_ddorb st)) (r_ddorb st') /\
      r_dclk st' = r_dclk st /\ r_ddclk st' = r_ddclk st /\ r_dddclk st' = r_dddclk st /\
      r_hclk st' = r_hclk st /\ r_ura st' = r_ura st
  | SCLK =>
      let new := timediff 1 t (r_t0s st SCLK) >? 0 in
      tagged [SCLK] [SCLK] t h (sats_of s es) st st' /\
      r_sat_n st' = r_sat_n st /\ r_sys_n st' = r_sys_n st /\ r_nsat_n st' = r_nsat_n st /\
      r_iode st' = r_iode st /\ r_dorb st' = r_dorb st /\ r_ddorb st' = r_ddorb st /\
      holds s es (fun e => fst (fst (n_c e))) (keep new (r_dclk st)) (r_dclk st') /\
      holds s es (fun e => snd (fst (n_c e))) (keep new (r_ddclk st)) (r_ddclk st') /\
      holds s es (fun e => snd (n_c e)) (keep new (r_dddclk st)) (r_dddclk st') /\
      r_hclk st' = r_hclk st /\ r_ura st' = r_ura st
  | SOC =>
      let new := timediff 1 t (r_t0s st SORB) >? 0 in
      tagged [SORB; SCLK] [SORB] t h (sats_of s es) st st' /\
      r_sat_n st' = keep new (r_sat_n st) ++ sats_of s es /\
      r_sys_n st' = keep new (r_sys_n st) ++ map (fun _ => s) es /\
      r_nsat_n st' = (if new then 0 else r_nsat_n st) + Z.of_nat (length es) /\
      holds s es n_iode (keep new (r_iode st)) (r_iode st') /\
      holds s es n_d (keep new (r_dorb st)) (r_dorb st') /\
      holds s es n_dd (keep new (r_ddorb st)) (r_ddorb st') /\
      holds s es (fun e => fst (fst (n_c e))) (keep new (r_dclk st)) (r_dclk st') /\
      holds s es (fun e => snd (fst (n_c e))) (keep new (r_ddclk st)) (r_ddclk st') /\
      holds s es (fun e => snd (n_c e)) (keep new (r_dddclk st)) (r_dddclk st') /\
      r_hclk st' = r_hclk st /\ r_ura st' = r_ura st
  | SURA =>
      let new := timediff 1 t (r_t0s st SURA) >? 0 in
      tagged [SURA] [SURA] t h (sats_of s es) st st' /\
      r_sat_n st' = r_sat_n st /\ r_sys_n st' = r_sys_n st /\ r_nsat_n st' = r_nsat_n st /\
      r_iode st' = r_iode st /\ r_dorb st' = r_dorb st /\ r_ddorb st' = r_ddorb st /\
      r_dclk st' = r_dclk st /\ r_ddclk st' = r_ddclk st /\ r_dddclk st' = r_dddclk st /\ r_hclk st' = r_hclk st /\
      holds s es (fun e => q_of (fst (n_q e)) (snd (n_q e))) (keep new (r_ura st)) (r_ura st')
  | SHCLK =>
      let new := timediff 1 t (r_t0s st SHCLK) >? 0 in
      tagged [SHCLK] [SHCLK] t h (sats_of s es) st st' /\
      r_sat_n st' = r_sat_n st /\ r_sys_n st' = r_sys_n st /\ r_nsat_n st' = r_nsat_n st /\
      r_iode st' = r_iode st /\ r_dorb st' = r_dorb st /\ r_ddorb st' = r_ddorb st /\
      r_dclk st' = r_dclk st /\ r_ddclk st' = r_ddclk st /\ r_dddclk st' = r_dddclk st /\ r_ura st' = r_ura st /\
      holds s es n_h (keep new (r_hclk st)) (r_hclk st')
  | _ => False
  end.

(** the high-rate clock message writes into the array left by the last clock message *)
Definition ready (c : sct) (n : nat) (st : rst) : Prop :=
  c = SHCLK -> match r_dclk_n st with Some k => (n <= k)%nat | None => n = 0%nat end.

End Effect.
