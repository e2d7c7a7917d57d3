(** Selection of broadcast ephemerides and use of SSR corrections in satposs:
    /repo/src/cssrlib/ephemeris.py:17-42, 486-735, 860-876.
    Times are in ticks of 1/U s.  The orbit and clock polynomials themselves are not modelled here;
    for each observed satellite the model gives the ephemeris and the corrections that are used. *)
From Verif Require Export Base SatModel TimeModel CssrState.
Open Scope Z_scope.

(** the attributes of an ephemeris (gnss.py Eph, Geph) that selection looks at *)
Record ephm := EPH { e_sat : Z; e_iode : Z; e_mode : Z; e_toe : gtime; e_svh : Z; e_tgd : Z }.

(** ephemeris.py:17-19 MAXDTOE_t (s); KeyError for uGNSS.NONE *)
Definition maxdtoe (sys : gnss) : option Z :=
  match sys with
  | GPS => Some 7201 | GAL => Some 14400 | QZS => Some 7201 | BDS => Some 7201
  | IRN => Some 7201 | GLO => Some 1800 | SBS => Some 360 | NONE => None
  end.

Section T.
Variable U : Z.

(** ephemeris.py:28-42: the loop over [nav] *)
Fixpoint findeph_loop (nav : list ephm) (t : gtime) (sat iode mode tmax : Z) (eph : option ephm) (tmin : Z)
  : option ephm :=
  match nav with
  | [] => eph
  | e :: r =>
    if negb (e_sat e =? sat) || ((iode >=? 0) && negb (iode =? e_iode e)) then findeph_loop r t sat iode mode tmax eph tmin
    else if negb (e_mode e =? mode) then findeph_loop r t sat iode mode tmax eph tmin
    else
      let dt := Z.abs (timediff U t (e_toe e)) in
      if (dt >? tmax) || negb (e_mode e =? mode) then findeph_loop r t sat iode mode tmax eph tmin
      else if iode >=? 0 then Some e
      else if dt <=? tmin then findeph_loop r t sat iode mode tmax (Some e) dt
      else findeph_loop r t sat iode mode tmax eph tmin
  end.
(** ephemeris.py:22-42 findeph; [None] = KeyError *)
Definition findeph (nav : list ephm) (t : gtime) (sat iode mode : Z) : option (option ephm) :=
  do m <- maxdtoe (fst (sat2prn sat));
  Some (findeph_loop nav t sat iode mode (m * U) None (m * U + U)).

(** ephemeris.py:860-876 findalm; almanacs are pairs (satellite, time of applicability), the age
    limit [None] is the default np.inf *)
Fixpoint findalm_loop (l : list (Z * gtime)) (t : gtime) (sat : Z) (tmax : option Z) (a : option (Z * gtime)) (tmin : option Z)
  : option (Z * gtime) :=
  match l with
  | [] => a
  | x :: r =>
    if negb (fst x =? sat) then findalm_loop r t sat tmax a tmin
    else
      let dt := Z.abs (timediff U t (snd x)) in
      if match tmax with Some m => dt >? m | None => false end then findalm_loop r t sat tmax a tmin
      else if match tmin with Some m => dt <=? m | None => true end then findalm_loop r t sat tmax (Some x) (Some dt)
      else findalm_loop r t sat tmax a tmin
  end.
Definition findalm (l : list (Z * gtime)) (t : gtime) (sat : Z) (tmax : option Z) : option (Z * gtime) :=
  findalm_loop l t sat tmax None (option_map (fun m => m + U) tmax).

(* ---------- satposs, ephemeris.py:486-735, nav.ephopt <> 4 ---------- *)
(** cssrlib.py:20-32 sCSSRTYPE as far as satposs distinguishes them *)
Inductive smode := MStd (* CLAS, MADOCA, HAS IDD, IGS, RTCM *) | MHas | MBds | MPvs | MSbasL1 | MSbasL5 | MDgps.
Definition is_rate (m : smode) : bool := match m with MPvs | MSbasL1 | MSbasL5 => true | _ => false end.

(** numbers: a common unit is chosen such that all products below are integral; [None] = NaN *)
Definition num := option Z.
Definition nadd (a b : num) : num := do x <- a; do y <- b; Some (x + y).
Definition nscale (a : num) (k : Z) : num := do x <- a; Some (x * k).
Definition vec := (num * num * num)%type.
Definition vadd (a b : vec) : vec := let '(x, y, z) := a in let '(u, v, w) := b in (nadd x u, nadd y v, nadd z w).
Definition vscale (a : vec) (k : Z) : vec := let '(x, y, z) := a in (nscale x k, nscale y k, nscale z k).
Definition is_nan (a : num) : bool := match a with None => true | _ => false end.
(** np.isnan(dorb@dorb) *)
Definition vnan (a : vec) : bool := let '(x, y, z) := a in is_nan x || is_nan y || is_nan z.

(** the part of a [cssr] object (and of lc[0]) that satposs reads *)
Record scs := SCS {
  c_mode : smode; c_iodssr : Z; c_iodssr_p : Z; c_iod_orb : Z; c_iod_clk : Z;
  c_sat_n : list Z; c_sat_n_p : list Z; c_mask_id : Z; c_mask_id_clk : Z;
  c_iode : option (dict Z Z); c_dorb : dict Z vec; c_dvel : dict Z vec;
  c_dclk : dict Z num; c_ddft : dict Z num; c_hclk : option (dict Z num); c_hstat : bool;
  c_t0 : dict Z (dict Z gtime); c_iodc : dict Z Z; c_iodc_c : dict Z Z; c_iodc_c_p : dict Z Z;
  c_dclk_p : dict Z num; c_nav_mode : dict gnss Z }.
Definition set_dorb (d : dict Z vec) (c : scs) : scs :=
  SCS (c_mode c) (c_iodssr c) (c_iodssr_p c) (c_iod_orb c) (c_iod_clk c) (c_sat_n c) (c_sat_n_p c) (c_mask_id c)
      (c_mask_id_clk c) (c_iode c) d (c_dvel c) (c_dclk c) (c_ddft c) (c_hclk c) (c_hstat c) (c_t0 c) (c_iodc c)
      (c_iodc_c c) (c_iodc_c_p c) (c_dclk_p c) (c_nav_mode c).
Definition tO := 1. (* sCType.ORBIT *)
Definition tC := 2. (* sCType.CLOCK *)

Definition memz (x : Z) (l : list Z) : bool := existsb (Z.eqb x) l.

(** What happens to the corrections of one satellite, ephemeris.py:577-638.
    [None] = exception, [Some (c, None)] = continue, [Some (c, Some (iode, dorb, dclk, mode))].
    [c] is the correction object after the in-place [dorb += ...]. *)
Definition ssr_of (c : scs) (sat : Z) (sys : gnss) (tobs : gtime) : option (scs * option (Z * vec * num * Z)) :=
  let skip c := Some (c, None) in
  if (if (c_iodssr c >=? 0) && (c_iod_orb c =? c_iodssr c) then negb (memz sat (c_sat_n c))
      else if (c_iodssr_p c >=? 0) && (c_iod_orb c =? c_iodssr_p c) then negb (memz sat (c_sat_n_p c))
      else true) then skip c else
  do iodes <- c_iode c;
  match zget sat iodes with
  | None => skip c
  | Some iode =>
    do dorb <- zget sat (c_dorb c);
    do cd <- (if is_rate (c_mode c) then
                do dv <- zget sat (c_dvel c); do t0 <- zget sat (c_t0 c); do t0 <- zget tO t0;
                let d := vadd dorb (vscale dv (timediff U tobs t0)) in
                Some (set_dorb (zset sat d (c_dorb c)) c, d)
              else Some (c, dorb));
    let '(c, dorb) := cd in
    do r <- (match c_mode c with
             | MBds =>
               do a <- zget sat (c_iodc c); do b <- zget sat (c_iodc_c c);
               if a =? b then do v <- zget sat (c_dclk c); Some (Some v)
               else do p <- zget sat (c_iodc_c_p c);
                    if a =? p then do v <- zget sat (c_dclk_p c); Some (Some v) else Some None
             | m =>
               if (match m with
                   | MHas => negb (c_mask_id c =? c_mask_id_clk c) && negb (memz sat (c_sat_n_p c))
                   | _ => if c_iod_clk c =? c_iodssr c then negb (memz sat (c_sat_n c))
                          else if c_iod_clk c =? c_iodssr_p c then negb (memz sat (c_sat_n_p c)) else true
                   end) then Some None else
               match zget sat (c_dclk c) with
               | None => Some None
               | Some v =>
                 do v <- (if c_hstat c then
                            do h <- c_hclk c;
                            Some (match zget sat h with
                                  | Some x => if is_nan x then v else nadd v x
                                  | None => v
                                  end)
                          else Some v);
                 do v <- (if is_rate m then
                            do f <- zget sat (c_ddft c); do t0 <- zget sat (c_t0 c); do t0 <- zget tC t0;
                            Some (nadd v (nscale f (timediff U tobs t0)))
                          else Some v);
                 Some (Some v)
               end
             end);
    match r with
    | None => skip c
    | Some dclk =>
      if is_nan dclk || vnan dorb then skip c else
      do md <- dget gnss_eqb sys (c_nav_mode c);
      Some (c, Some (iode, dorb, dclk, md))
    end
  end.

(** result for one observed satellite: skipped with the health code left in svh, or used with an
    ephemeris, the orbit and clock corrections and the group delay subtracted from the clock *)
Inductive sout := Skip (svh : Z) | Use (e : ephm) (corr : option (vec * num)) (tgd : option Z).
(** the Python variable [eph] of the loop: unbound, None, or an ephemeris *)
Inductive evar := EUnbound | ENone | EIs (e : ephm).

Section Nav.
Variable eph geph : list ephm.       (** nav.eph, nav.geph *)
Variable sigs : list gnss.           (** constellations of obs.sig *)
Variable tobs : gtime.               (** obs.t *)
Variable single : bool.              (** nav.smode == 1 and nav.nf == 1 *)

(** one satellite; [t] is obs.t - pr/c *)
Definition satposs_one (cs : option scs) (ev : evar) (sat : Z) (t : gtime) : option (option scs * evar * sout) :=
  let sys := fst (sat2prn sat) in
  if negb (existsb (gnss_eqb sys) sigs) then Some (cs, ev, Skip 0) else
  do g <- (match cs with
           | None => Some (None, Some (-1, None, 0))
           | Some c => do r <- ssr_of c sat sys tobs;
                       Some (Some (fst r), option_map (fun '(i, o, k, m) => (i, Some (o, k), m)) (snd r))
           end);
  let '(cs, g) := g in
  match g with
  | None => Some (cs, ev, Skip 0)
  | Some (iode, corr, mode) =>
    let is_glo := gnss_eqb sys GLO in
    do f <- findeph (if is_glo then geph else eph) t sat iode mode;
    let ev := if is_glo then ev else match f with Some e => EIs e | None => ENone end in
    match f with
    | None => Some (cs, ev, Skip 1)
    | Some e =>
      match cs with
      | Some c =>
        do tgd <- (if (match c_mode c with MPvs | MSbasL1 | MSbasL5 | MDgps => true | _ => false end) && gnss_eqb sys GPS
                   then match ev with EIs x => Some (Some (e_tgd x)) | _ => None end else Some None);
        do t0 <- zget sat (c_t0 c); do _ <- zget tO t0;
        Some (cs, ev, Use e corr tgd)
      | None =>
        do tgd <- (if single then match ev with EIs x => Some (Some (e_tgd x)) | _ => None end else Some None);
        Some (cs, ev, Use e corr tgd)
      end
    end
  end.

Fixpoint satposs_loop (obs : list (Z * gtime)) (cs : option scs) (ev : evar) : option (option scs * list sout) :=
  match obs with
  | [] => Some (cs, [])
  | (sat, t) :: r =>
    do x <- satposs_one cs ev sat t;
    let '(cs, ev, o) := x in
    do y <- satposs_loop r cs ev;
    Some (fst y, o :: snd y)
  end.
(** with corrections and no observation the last statement uses the unbound variable [sat] *)
Definition satposs (obs : list (Z * gtime)) (cs : option scs) : option (option scs * list sout) :=
  match obs, cs with
  | [], Some _ => None
  | _, _ => satposs_loop obs cs EUnbound
  end.
End Nav.
End T.
