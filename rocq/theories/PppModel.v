(** State vector, process noise, options and ambiguity bookkeeping of the PPP filter:
    /repo/src/cssrlib/pppssr.py:31-220 (constructor), 246-262 (initx, IB, II, IT),
    1050-1111 (restamb, ddidx), 1152-1184 (holdamb); gnss.py:1772-1808; ppprtk.py:11-24; rtk.py:14-27. *)
From Verif Require Export Base SatModel.
Open Scope Z_scope.

(* ---------- layout of the state vector ---------- *)
(** the attributes of [nav] that determine the layout; [nf] is nav.nf *)
Record popt := PO { pmode : Z; trop_opt : Z; iono_opt : Z; nf : nat }.

(** pppssr.py:84-91 *)
Definition ntrop (o : popt) : Z := if trop_opt o =? 1 then 1 else 0.
Definition niono (o : popt) : Z := if iono_opt o =? 1 then MAXSAT else 0.
Definition na (o : popt) : Z := (if pmode o =? 0 then 3 else 6) + (ntrop o + niono o).
Definition nq (o : popt) : Z := (if pmode o =? 0 then 3 else 6) + (ntrop o + niono o).
(** pppssr.py:95 *)
Definition nx (o : popt) : Z := na o + MAXSAT * Z.of_nat (nf o).
(** pppssr.py:252-262; the callers pass nav.na *)
Definition IB (s f na : Z) : Z := na + MAXSAT * f + s - 1.
Definition II (s na : Z) : Z := na - MAXSAT + s - 1.
Definition IT (na : Z) : Z := na - MAXSAT - 1.

(** numpy: element of an axis of length [n] selected by index [i]; [None] = IndexError *)
Definition np_ix (n i : Z) : option Z :=
  if (0 <=? i) && (i <? n) then Some i else if (- n <=? i) && (i <? 0) then Some (n + i) else None.

(* ---------- initial variances and process noise ---------- *)
Section Noise.
Context {V : Type} (zero : V).
(** l[a:b] = v with 0 <= a: the slice is truncated at the end of [l]; [k] is the index of the head *)
Fixpoint sset (k a b : Z) (v : V) (l : list V) : list V :=
  match l with
  | [] => []
  | x :: r => (if (a <=? k) && (k <? b) then v else x) :: sset (k + 1) a b v r
  end.
(** l[a] = v; [None] = IndexError *)
Definition iset (a : Z) (v : V) (l : list V) : option (list V) :=
  if (0 <=? a) && (a <? Z.of_nat (List.length l)) then Some (sset 0 a (a + 1) v l) else None.

(** pppssr.py:170-186: diagonal of P; arguments sig_p0**2, sig_v0**2, sig_ztd0**2 *)
Definition diag0 (o : popt) (p0 v0 z0 : V) : option (list V) :=
  let d := repeat zero (Z.to_nat (nx o)) in
  let d := sset 0 0 3 p0 d in
  let d := if pmode o >=? 1 then sset 0 3 6 v0 d else d in
  if trop_opt o =? 1 then iset (if pmode o >=? 1 then 6 else 3) z0 d else Some d.
(** pppssr.py:190-220: nav.q; arguments sig_qp**2, sig_qv**2, sig_qztd**2, sig_qion**2, sig_qb**2 *)
Definition qvec (o : popt) (qp qv qz qi qb : V) : option (list V) :=
  let q := repeat zero (Z.to_nat (nq o)) in
  let q := sset 0 0 3 qp q in
  let q := if pmode o >=? 1 then sset 0 3 6 qv q else q in
  do q <- (if trop_opt o =? 1 then iset (if pmode o >=? 1 then 6 else 3) qz q else Some q);
  let q := if iono_opt o =? 1 then
             (if pmode o >=? 1 then sset 0 7 (7 + MAXSAT) qi q else sset 0 4 (4 + MAXSAT) qi q) else q in
  let m := MAXSAT * Z.of_nat (nf o) + 1 in
  Some (if pmode o >=? 1 then sset 0 (7 + MAXSAT) (7 + m) qb q else sset 0 (4 + MAXSAT) (4 + m) qb q).
End Noise.

(* ---------- options of the constructors ---------- *)
(** config['nav'] as far as the options go; [None] = key absent *)
Record pcfg := PC { k_trop : option Z; k_iono : option Z; k_phw : option Z; k_csm : option bool }.
(** options of a [Nav]; Nav() has no attribute csmooth *)
Record nopt := NO { n_trop : Z; n_iono : Z; n_phw : Z; n_csm : option bool }.
(** gnss.py:911-917 *)
Definition nav0 : nopt := NO 0 0 1 None.
(** gnss.py:1772-1781: the switch is spelt "cmooth" *)
Definition default0 : pcfg := PC (Some 1) (Some 1) (Some 1) None.

(** pppssr.py:41-46: the configuration dictionary is changed in place *)
Definition override (t i p : Z) (c : pcfg) : pcfg :=
  PC (if t >? 0 then Some t else k_trop c) (if i >? 0 then Some i else k_iono c)
     (if p >? 0 then Some p else k_phw c) (k_csm c).
Definition oset {A} (a : option A) (d : A) : A := match a with Some x => x | None => d end.
(** pppssr.py:66-79 *)
Definition take_opts (c : pcfg) (n : nopt) : nopt :=
  NO (oset (k_trop c) (n_trop n)) (oset (k_iono c) (n_iono n)) (oset (k_phw c) (n_phw n))
     (match k_csm c with Some b => Some b | None => n_csm n end).
(** pppos(nav, trop_opt=t, iono_opt=i, phw_opt=p, config=cfg), pppssr.py:31-79.  [g] is the module
    variable default_config; the results are [g] afterwards, the caller's dictionary afterwards and
    the options of nav. *)
Definition mk_ppp (g : pcfg) (cfg : option pcfg) (t i p : Z) (n : nopt) : pcfg * option pcfg * nopt :=
  match cfg with
  | None => let g := override t i p g in (g, None, take_opts g n)
  | Some c => let c := override t i p c in (g, Some c, take_opts c n)
  end.
(** ppprtk.py:14-24; [None] = TypeError (config['nav'] with config = None) *)
Definition mk_ppprtk (g : pcfg) (cfg : option pcfg) (n : nopt) : option (pcfg * option pcfg * nopt) :=
  match cfg with None => None | Some _ => Some (mk_ppp g cfg (-1) (-1) (-1) n) end.
(** rtk.py:20-21 *)
Definition mk_rtk (g : pcfg) (cfg : option pcfg) (n : nopt) : pcfg * option pcfg * nopt := mk_ppp g cfg 0 0 0 n.

(* ---------- double-difference ambiguities ---------- *)
Section Amb.
(** elements of the state vector: x == 0.0 and subtraction *)
Context {F : Type} (is0 : F -> bool) (fsub : F -> F -> F).
(** nav.x, nav.na, nav.nf, nav.vsat[s-1, f], nav.el[s-1] and nav.elmaskar (on a common integer
    scale), and the satellites observed *)
Variables (x : Z -> F) (na : Z) (nf : nat) (vsat : Z -> Z -> Z) (el : Z -> Z) (mask : Z) (sats : list Z).

Definition sys_of (s : Z) : gnss := fst (sat2prn s).
(** range(uGNSS.GNSSMAX) and range(uGNSS.MAXSAT), range(nav.nf) *)
Definition all_sys : list gnss := [GPS; GAL; QZS; BDS; GLO; SBS; IRN].
Definition all_sat : list Z := map Z.of_nat (seq 1 (Z.to_nat MAXSAT)).
Definition all_f : list Z := map Z.of_nat (seq 0 nf).
(** nav.fix[s-1, f] *)
Definition fixt := Z -> Z -> Z.
Definition setfix (s f v : Z) (t : fixt) : fixt := fun s' f' => if (s' =? s) && (f' =? f) then v else t s' f'.

(** the conditions of lines 1086-1088 (1098-1099) *)
Definition skipped (s f : Z) : bool :=
  negb (existsb (Z.eqb s) sats) || is0 (x (IB s f na)) || (vsat s f =? 0).
(** pppssr.py:1082-1093: the satellite at which the loop stops, and nav.fix *)
Fixpoint ref_loop (l : list Z) (m : gnss) (f i : Z) (t : fixt) : Z * fixt :=
  match l with
  | [] => (i, t)
  | s :: r =>
    if negb (gnss_eqb (sys_of s) m) then ref_loop r m f s t
    else if skipped s f then ref_loop r m f s t
    else if el s >=? mask then (s, setfix s f 2 t)
    else ref_loop r m f s (setfix s f 1 t)
  end.
(** pppssr.py:1094-1105; row [nb] of [ix] exists only for nb < MAXSAT (IndexError) *)
Fixpoint dd_loop (l : list Z) (m : gnss) (f i : Z) (ix : list (Z * Z)) (t : fixt) : option (list (Z * Z) * fixt) :=
  match l with
  | [] => Some (ix, t)
  | s :: r =>
    if negb (gnss_eqb (sys_of s) m) then dd_loop r m f i ix t
    else if (i =? s) || skipped s f then dd_loop r m f i ix t
    else if el s >=? mask then
      if Z.of_nat (List.length ix) <? MAXSAT
      then dd_loop r m f i (ix ++ [(IB i f na, IB s f na)]) (setfix s f 2 t) else None
    else dd_loop r m f i ix t
  end.
Definition dd_block (mf : gnss * Z) (a : list (Z * Z) * fixt) : option (list (Z * Z) * fixt) :=
  let '(m, f) := mf in
  let '(i, t) := ref_loop all_sat m f 0 (snd a) in
  dd_loop all_sat m f i (fst a) t.
Fixpoint dd_blocks (l : list (gnss * Z)) (a : list (Z * Z) * fixt) : option (list (Z * Z) * fixt) :=
  match l with [] => Some a | b :: r => do a <- dd_block b a; dd_blocks r a end.
Definition blocks : list (gnss * Z) := List.concat (map (fun m => map (fun f => (m, f)) all_f) all_sys).
(** pppssr.py:1073-1111 ddidx *)
Definition ddidx : option (list (Z * Z) * fixt) := dd_blocks blocks ([], fun _ _ => 0).

Definition upd {A} (i : Z) (v : A) (g : Z -> A) : Z -> A := fun k => if k =? i then v else g k.
(** pppssr.py:1058-1064: indices of the fixed ambiguities of one constellation and frequency *)
Definition fixed_of (t : fixt) (mf : gnss * Z) : list Z :=
  map (fun s => IB s (snd mf) na)
      (filter (fun s => gnss_eqb (sys_of s) (fst mf) && (t s (snd mf) =? 2)) all_sat).
(** pppssr.py:1068-1070; [bias] from position nv on; None = IndexError *)
Fixpoint rest_loop (i0 : Z) (l : list Z) (bias : list F) (xa : Z -> F) : option (list F * (Z -> F)) :=
  match l with
  | [] => Some (bias, xa)
  | i :: r => match bias with
              | [] => None
              | b :: bias => rest_loop i0 r bias (upd i (fsub (xa i0) b) xa)
              end
  end.
Fixpoint rest_blocks (l : list (list Z)) (bias : list F) (xa : Z -> F) : option (Z -> F) :=
  match l with
  | [] => Some xa
  | (i0 :: ((_ :: _) as r)) :: l' =>
      do p <- rest_loop i0 r bias (upd i0 (x i0) xa); rest_blocks l' (fst p) (snd p)
  | _ :: l' => rest_blocks l' bias xa
  end.
(** pppssr.py:1050-1071 restamb; [xfix] is nav.xa *)
Definition restamb (t : fixt) (xfix : Z -> F) (bias : list F) : option (Z -> F) :=
  rest_blocks (map (fixed_of t) blocks) bias (fun k => if (0 <=? k) && (k <? na) then xfix k else x k).

(** pppssr.py:1152-1178 holdamb: rows (index with +1, index with -1, residual) and nav.fix; there are
    nx-na rows, enough for all satellites *)
Definition hold_rows (xa : Z -> F) (l : list Z) : list (Z * Z * F) :=
  match l with
  | [] => []
  | i0 :: r => map (fun i => (i0, i, fsub (fsub (xa i0) (xa i)) (fsub (x i0) (x i)))) r
  end.
Definition holdamb (t : fixt) (xa : Z -> F) : list (Z * Z * F) * fixt :=
  (List.concat (map (fun b => hold_rows xa (fixed_of t b)) blocks),
   fun s f => if (1 <=? s) && (s <=? MAXSAT) && (0 <=? f) && (f <? Z.of_nat nf) && (t s f =? 2) then 3 else t s f).
End Amb.
