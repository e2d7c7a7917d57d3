(** Which ephemerides qualify, and what it means to use a correction. *)
From Verif Require Import EphModel.
Open Scope Z_scope.

(** ages in ticks *)
Definition age (U : Z) (t : gtime) (e : ephm) : Z := Z.abs (timediff U t (e_toe e)).
(** ephemeris [e] qualifies for satellite [sat] at [t] *)
Definition qualifies (U : Z) (t : gtime) (sat iode mode m : Z) (e : ephm) : Prop :=
  e_sat e = sat /\ e_mode e = mode /\ age U t e <= m * U /\ (0 <= iode -> e_iode e = iode).

(** age limits in seconds, written out again here *)
Definition age_limit (sys : gnss) (m : Z) : Prop :=
  In (sys, m) [(GPS, 7201); (GAL, 14400); (QZS, 7201); (BDS, 7201); (IRN, 7201); (GLO, 1800); (SBS, 360)].

(** services whose corrections carry rates: SouthPAN and SBAS L1 / L5 *)
Definition with_rates (m : smode) : Prop := m = MPvs \/ m = MSbasL1 \/ m = MSbasL5.
(** reference time of the orbit (1) or clock (2) correction of a satellite *)
Definition ref_time (c : scs) (sat kind : Z) (t : gtime) : Prop :=
  exists d, zget sat (c_t0 c) = Some d /\ zget kind d = Some t.

(** the orbit correction [(x, y, z)] that applies at [tobs] *)
Definition orbit_corr (U : Z) (c : scs) (tobs : gtime) (sat : Z) (o : vec) : Prop :=
  exists x y z, o = (Some x, Some y, Some z) /\
    ((~ with_rates (c_mode c) /\ zget sat (c_dorb c) = Some (Some x, Some y, Some z)) \/
     (with_rates (c_mode c) /\ exists x0 y0 z0 vx vy vz tt,
        zget sat (c_dorb c) = Some (Some x0, Some y0, Some z0) /\ zget sat (c_dvel c) = Some (Some vx, Some vy, Some vz) /\
        ref_time c sat 1 tt /\
        let dt := timediff U tobs tt in x = x0 + vx * dt /\ y = y0 + vy * dt /\ z = z0 + vz * dt)).
(** the clock correction that applies at [tobs]: for BDS PPP-B2b the one whose issue agrees with the
    orbit correction; otherwise the stored one, plus the high-rate correction if there is one, plus
    the drift for SBAS and SouthPAN *)
Definition clock_corr (U : Z) (c : scs) (tobs : gtime) (sat x : Z) : Prop :=
  (c_mode c = MBds /\ exists a, zget sat (c_iodc c) = Some a /\
      ((zget sat (c_iodc_c c) = Some a /\ zget sat (c_dclk c) = Some (Some x)) \/
       (zget sat (c_iodc_c c) <> Some a /\ zget sat (c_iodc_c_p c) = Some a /\ zget sat (c_dclk_p c) = Some (Some x)))) \/
  (c_mode c <> MBds /\ exists v hr rate, zget sat (c_dclk c) = Some (Some v) /\ x = v + hr + rate /\
      ((c_hstat c = true /\ exists h, c_hclk c = Some h /\ zget sat h = Some (Some hr)) \/
       (hr = 0 /\ ~ (c_hstat c = true /\ exists h y, c_hclk c = Some h /\ zget sat h = Some (Some y)))) /\
      ((~ with_rates (c_mode c) /\ rate = 0) \/
       (with_rates (c_mode c) /\ exists f tt, zget sat (c_ddft c) = Some (Some f) /\ ref_time c sat 2 tt /\
          rate = f * timediff U tobs tt))).
(** the satellite is in the mask the orbit corrections refer to *)
Definition in_mask (c : scs) (sat : Z) : Prop :=
  (0 <= c_iodssr c /\ c_iod_orb c = c_iodssr c /\ In sat (c_sat_n c)) \/
  (~ (0 <= c_iodssr c /\ c_iod_orb c = c_iodssr c) /\
   0 <= c_iodssr_p c /\ c_iod_orb c = c_iodssr_p c /\ In sat (c_sat_n_p c)).
(** ... and in the mask the clock corrections refer to (BDS clocks are matched by issue instead) *)
Definition in_clk_mask (c : scs) (sat : Z) : Prop :=
  match c_mode c with
  | MBds => True
  | MHas => c_mask_id c = c_mask_id_clk c \/ In sat (c_sat_n_p c)
  | _ => (c_iod_clk c = c_iodssr c /\ In sat (c_sat_n c)) \/
         (c_iod_clk c <> c_iodssr c /\ c_iod_clk c = c_iodssr_p c /\ In sat (c_sat_n_p c))
  end.
Definition finite_vec (o : vec) : Prop := exists x y z, o = (Some x, Some y, Some z).
