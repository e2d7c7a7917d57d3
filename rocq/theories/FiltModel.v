(** Residuals, measurement covariance, Kalman update, time update and carrier smoothing of the PPP
    filter: /repo/src/cssrlib/pppssr.py:244-248 (initx), 264-271 (varerr), 273-280 (sysidx), 281-464
    (udstate), 775-1007 (sdres), 1009-1020 (ddcov), 1022-1048 (kfupdate); gnss.py:1343-1366 (kfupdate);
    pntpos.py:186-211 (csmooth).  Exact arithmetic over an ordered field; sine, the mapping function and
    the signal frequencies are parameters.  Log output is not modelled. *)
From Verif Require Export SatModel TimeModel CssrState PppModel.
From mathcomp Require Import all_ssreflect all_algebra.
Set Implicit Arguments.
Unset Strict Implicit.
Unset Printing Implicit Defensive.
Import GRing.Theory Num.Theory.
Local Open Scope ring_scope.

(* ---------- single differences ---------- *)
Section Sd.
Variable F : realFieldType.

(** the arguments of sdres and the attributes of [nav] it reads.  Arrays are functions of their
    indices.  [si_dd]: y has more rows than there are satellites (the rows from ns on are those of the
    base receiver).  [si_mapw x0 x1 x2 el] is the wet mapping function at the position x[0:3];
    [si_freq m true k ch] the frequency of obs.sig[m][uTYP.L][k] at GLONASS channel [ch] (which the
    other systems ignore), [si_freq m false k ch] that of obs.sig[m][uTYP.C][k]; [si_ch s] is
    nav.glo_ch[s] (a missing channel raises KeyError, not modelled) *)
Record sdin := SD {
  si_o : popt; si_sys : seq gnss; si_sat : seq Z; si_el : nat -> F; si_e : nat -> nat -> F;
  si_y : nat -> nat -> F; si_dd : bool; si_edt : Z -> bool; si_mapw : F -> F -> F -> F -> F;
  si_freq : gnss -> bool -> nat -> Z -> F; si_ch : Z -> Z; si_c : F;
  si_sin : F -> F; si_smin : F; si_err1 : F; si_err2 : F; si_eratio : nat -> F }.

Section Rows.
Variable I : sdin.
Let o := si_o I.
Let nfr := nf o.
Let sat (i : nat) : Z := nth Z0 (si_sat I) i.
Let ns := size (si_sat I).

(** pppssr.py:264-271; [si_smin] is 0.1*D2R *)
Definition varerr (el : F) (f : nat) : F :=
  let s_el := Num.max (si_sin I el) (si_smin I) in
  let fact := if (nfr <= f)%N then si_eratio I (f - nfr) else 1 in
  let a := fact * si_err1 I in
  let b := fact * si_err2 I in
  a ^+ 2 + (b / s_el) ^+ 2.

(** pppssr.py:273-280 *)
Definition sysidx (m : gnss) : seq nat := [seq k <- iota 0 ns | gnss_eqb (fst (sat2prn (sat k))) m].
(** idx[np.argmax(el[idx])], pppssr.py:844: the first of the largest *)
Definition argmax (k : nat) (idx : seq nat) : nat :=
  foldl (fun b j => if si_el I b < si_el I j then j else b) k idx.

(** a negative index counts from the end *)
Definition wrapi (k : Z) : Z := if Z.ltb k Z0 then Z.add (nx o) k else k.
(** H[nv, k] = v *)
Definition setH (k : Z) (v : F) (h : Z -> F) : Z -> F := fun z => if Z.eqb z (wrapi k) then v else h z.

(** pppssr.py:853-877 and 934-939: frequency and wavelength of signal number [f] of satellite [i] *)
Definition chan (m : gnss) (i : nat) : Z := if gnss_eqb m GLO then si_ch I (sat i) else Z0.
Definition freq0 (m : gnss) : F := si_freq I m true 0 Z0.
Definition freqof (m : gnss) (f i : nat) : F :=
  if (f < nfr)%N then si_freq I m true f (chan m i) else si_freq I m false (f %% nfr) (chan m i).
Definition mu_of (m : gnss) (f j : nat) : F :=
  if (f < nfr)%N then - (freq0 m / freqof m f j) ^+ 2 else (freq0 m / freqof m f j) ^+ 2.
Definition lam_of (m : gnss) (f i : nat) : F := si_c I / si_freq I m true f (chan m i).

(** pppssr.py:898-970: one row, v, H, Ri, Rj *)
Definition sd_row (x : Z -> F) (m : gnss) (f i j : nat) : F * (Z -> F) * F * F :=
  let y := si_y I in
  let v := if si_dd I then (y i f - y (i + ns)%N f) - (y j f - y (j + ns)%N f) else y i f - y j f in
  let h := setH (Zpos 2) (- si_e I i 2 + si_e I j 2)
          (setH (Zpos 1) (- si_e I i 1 + si_e I j 1)
          (setH Z0 (- si_e I i 0 + si_e I j 0) (fun _ => 0))) in
  let mw k := si_mapw I (x Z0) (x (Zpos 1)) (x (Zpos 2)) (si_el I k) in
  let '(v, h) := if Z.ltb Z0 (ntrop o) then
      let k := IT (na o) in
      (v - (mw i - mw j) * x (wrapi k), setH k (mw i - mw j) h) else (v, h) in
  let mu := mu_of m f j in
  let '(v, h) := if Z.ltb Z0 (niono o) then
      let ki := II (sat i) (na o) in let kj := II (sat j) (na o) in
      (v - mu * (x (wrapi ki) - x (wrapi kj)), setH kj (- mu) (setH ki mu h)) else (v, h) in
  let '(v, h) := if (f < nfr)%N then
      let ki := IB (sat i) (Z.of_nat f) (na o) in let kj := IB (sat j) (Z.of_nat f) (na o) in
      let lami := lam_of m f i in
      let lamj := if gnss_eqb m GLO then lam_of m f j else lami in
      (v - lami * (x (wrapi ki) - x (wrapi kj)), setH kj (- lamj) (setH ki lami h)) else (v, h) in
  (v, h, varerr (si_el I i) f, varerr (si_el I j) f).

(** pppssr.py:881-896 *)
Definition skip (f i j : nat) : bool :=
  [|| si_edt I (sat j), si_y I i f == 0, si_y I j f == 0 | i == j].
(** pppssr.py:831-978: one constellation and signal; [None]: no satellite, the block is not counted *)
Definition sd_block (x : Z -> F) (m : gnss) (f : nat) : option (seq (F * (Z -> F) * F * F)) :=
  match sysidx m with
  | [::] => None
  | k :: r => let i := argmax k r in
              Some [seq sd_row x m f i j | j <- k :: r & ~~ skip f i j]
  end.
Definition sd_blocks (x : Z -> F) : seq (seq (F * (Z -> F) * F * F)) :=
  pmap (fun mf => sd_block x mf.1 mf.2) [seq (m, f) | m <- si_sys I, f <- iota 0 (nfr * 2)].
End Rows.

(** pppssr.py:1009-1020; rows and columns are those of R, which starts as zeros((nv, nv)); a row beyond
    nv would raise IndexError, sdres passes nv = sum(nb) *)
Definition set2 (R : nat -> nat -> F) (a b : nat) (v : F) : nat -> nat -> F :=
  fun c d => if (c == a) && (d == b) then v else R c d.
Definition dd_blk (Ri Rj : seq F) (k n : nat) (R : nat -> nat -> F) : nat -> nat -> F :=
  foldl (fun R i => foldl (fun R j =>
      let R := set2 R (k + i) (k + j) Ri`_(k + i) in
      if i == j then set2 R (k + i) (k + j) (R (k + i)%N (k + j)%N + Rj`_(k + i)) else R) R (iota 0 n)) R (iota 0 n).
Definition ddcov (nb : seq nat) (Ri Rj : seq F) : nat -> nat -> F :=
  (foldl (fun kR n => ((kR.1 + n)%N, dd_blk Ri Rj kR.1 n kR.2)) (0%N, fun _ _ => 0) nb).2.

(** pppssr.py:1003-1007: v, H and R *)
Definition sdres (I : sdin) (x : Z -> F) : seq F * seq (Z -> F) * (nat -> nat -> F) :=
  let B := sd_blocks I x in
  let rows := flatten B in
  ([seq r.1.1.1 | r <- rows], [seq r.1.1.2 | r <- rows],
   ddcov [seq size b | b <- B] [seq r.1.2 | r <- rows] [seq r.2 | r <- rows]).
End Sd.

(* ---------- Kalman filter ---------- *)
Section Kf.
Variable F : realFieldType.
Variables n m : nat.
Implicit Types (x : 'cV[F]_n) (P : 'M[F]_n) (H : 'M[F]_(m, n)) (v : 'cV[F]_m) (R : 'M[F]_m).

(** pppssr.py:1042-1048; a singular S raises LinAlgError: [None] *)
Definition kfupdate x P H v R : option ('cV[F]_n * 'M[F]_n * 'M[F]_m) :=
  let PHt := P *m H^T in
  let S := H *m PHt + R in
  if S \in unitmx then
    let K := PHt *m invmx S in
    let x := x + K *m v in
    let IKH := 1%:M - K *m H in
    Some (x, IKH *m P *m IKH^T + K *m R *m K^T, S)
  else None.
End Kf.

Section KfSub.
Variable F : realFieldType.
Variables n m : nat.
(** gnss.py:1346-1349: the states with positive variance *)
Definition kf_ix (P : 'M[F]_n) : seq 'I_n := [seq i <- enum 'I_n | 0 < P i i].
Definition kf_sel (P : 'M[F]_n) : 'I_(size (kf_ix P)) -> 'I_n := fun a => tnth (in_tuple (kf_ix P)) a.
(** gnss.py:1343-1366 *)
Definition kfupdate_sub (x : 'cV[F]_n) (P : 'M[F]_n) (H : 'M[F]_(m, n)) (v : 'cV[F]_m) (R : 'M[F]_m) :
    option ('cV[F]_n * 'M[F]_n * 'M[F]_m) :=
  let f := @kf_sel P in
  let x_ := rowsub f x in
  let P_ := mxsub f f P in
  let H_ := colsub f H in
  let PHt := P_ *m H_^T in
  let S := H_ *m PHt + R in
  if S \in unitmx then
    let K := PHt *m invmx S in
    let x_ := x_ + K *m v in
    let P_ := P_ - K *m H_ *m P_ in
    (* x[ix] = x_; sP = P[ix, :]; sP[:, ix] = P_; P[ix, :] = sP *)
    Some (\col_i (if [pick a | f a == i] is Some a then x_ a 0 else x i 0),
          \matrix_(i, j) (if [pick a | f a == i] is Some a then
                            if [pick b | f b == j] is Some b then P_ a b else P i j
                          else P i j), S)
  else None.
End KfSub.

(* ---------- time update ---------- *)
Section Ud.
Variable F : realFieldType.
Variable n : nat.   (* nav.nx *)
(** nav.x, nav.P and nav.outc *)
Record ust := US { u_x : 'cV[F]_n; u_P : 'M[F]_n; u_outc : Z -> nat -> Z }.

(** pppssr.py:244-248 *)
Definition initx (x0 v0 : F) (i : nat) (s : ust) : ust :=
  US (\col_a (if a == i :> nat then x0 else u_x s a 0))
     (\matrix_(a, b) (if (a == i :> nat) && (b == i :> nat) then v0
                      else if (a == i :> nat) || (b == i :> nat) then 0 else u_P s a b))
     (u_outc s).
(** nav.x[i] *)
Definition getx (x : 'cV[F]_n) (i : nat) : F := if insub i is Some a then x a 0 else 0.

(** what udstate reads: interval, process noise (nq entries), options, systems of obs.sig, edited
    satellites, observed satellites, code and phase, frequencies of the code and phase signals
    (channel as in [sdin]) *)
Record udin := UD {
  ui_o : popt; ui_tt : F; ui_q : nat -> F; ui_maxout : Z; ui_sys : seq gnss; ui_edt : Z -> bool;
  ui_sat : seq Z; ui_P : nat -> nat -> F; ui_L : nat -> nat -> F;
  ui_freq : gnss -> bool -> nat -> Z -> F; ui_ch : Z -> option Z; ui_c : F; ui_n0 : F; ui_ion0 : F }.

Variable I : udin.
Let o := ui_o I.

(** pppssr.py:296-314: Phi, x[0:3] += x[3:6]*tt, P = Phi P Phi^T, diagonal += q*tt *)
Definition phi : 'M[F]_n :=
  \matrix_(a, b) ((a == b)%:R +
    (if ~~ Z.leb (pmode o) Z0 && (a < 3)%N && (b == (a + 3)%N :> nat) then ui_tt I else 0)).
Definition qdiag : 'M[F]_n :=
  \matrix_(a, b) (if (a == b) && (a < Z.to_nat (nq o))%N then ui_q I a * ui_tt I else 0).
Definition propagate (s : ust) : ust :=
  US (if ~~ Z.leb (pmode o) Z0 then
        \col_a (if (a < 3)%N then u_x s a 0 + getx (u_x s) (a + 3) * ui_tt I else u_x s a 0)
      else u_x s)
     (phi *m u_P s *m phi^T + qdiag) (u_outc s).

(** pppssr.py:320-351: one satellite in the loop over all satellites *)
Definition setc (c : Z -> nat -> Z) (s : Z) (f : nat) (v : Z) : Z -> nat -> Z :=
  fun s' f' => if Z.eqb s' s && (f' == f) then v else c s' f'.
Definition reset_amb (f : nat) (s : Z) (reset : bool) (st : ust) : ust :=
  let j := Z.to_nat (IB s (Z.of_nat f) (na o)) in
  if reset && (getx (u_x st) j != 0) then
    let st := initx 0 0 j st in US (u_x st) (u_P st) (setc (u_outc st) s f Z0) else st.
Definition reset_ion (s : Z) (reset : bool) (st : ust) : ust :=
  if Z.ltb Z0 (niono o) then
    let j := Z.to_nat (II s (na o)) in
    if reset && (getx (u_x st) j != 0) then initx 0 0 j st else st
  else st.
Definition ud_reset (f : nat) (s : Z) (st : ust) : ust :=
  let c := Z.add (u_outc st s f) (Zpos 1) in
  let st := US (u_x st) (u_P st) (setc (u_outc st) s f c) in
  let reset := Z.gtb c (ui_maxout I) || ui_edt I s in
  if ~~ has (gnss_eqb (fst (sat2prn s))) (ui_sys I) then st else
  reset_ion s reset (reset_amb f s reset st).

(** pppssr.py:366-413: bias[i] and ion[i]; 0 where the loop body is left early *)
Definition ud_bias (f i : nat) : F * F :=
  let s := nth Z0 (ui_sat I) i in
  let m := fst (sat2prn s) in
  if ui_edt I s then (0, 0) else
  let second ch ion f1 :=
    let fi := ui_freq I m true f ch in
    let lam := ui_c I / fi in
    let cp := ui_L I i f in
    let pr := ui_P I i f in
    if (cp == 0) || (pr == 0) then (0, ion)
    else (cp - pr / lam + 2%:R * ion / lam * (f1 / fi) ^+ 2, ion) in
  (* nav.glo_ch[s] without an entry: the first use is guarded when two frequencies are used; the
     unguarded use at line 399 raises KeyError, modelled as no initialisation *)
  match (if gnss_eqb m GLO then ui_ch I s else Some Z0) with
  | None => (0, 0)
  | Some ch =>
    if (1 < nf o)%N && Z.ltb Z0 (niono o) then
      let pr1 := ui_P I i 0 in let pr2 := ui_P I i 1 in
      if (pr1 == 0) || (pr2 == 0) then (0, 0) else
      let f1 := ui_freq I m false 0 ch in let f2 := ui_freq I m false 1 ch in
      second ch ((pr1 - pr2) / (1 - (f1 / f2) ^+ 2)) f1
    else second ch 0 0
  end.
(** pppssr.py:434-464: one observed satellite in the initialisation loop *)
Definition init_amb (f : nat) (s : Z) (bias : F) (st : ust) : ust :=
  let j := Z.to_nat (IB s (Z.of_nat f) (na o)) in
  if (bias != 0) && (getx (u_x st) j == 0) then initx bias (ui_n0 I ^+ 2) j st else st.
Definition init_ion (s : Z) (ion : F) (st : ust) : ust :=
  if Z.ltb Z0 (niono o) then
    let j := Z.to_nat (II s (na o)) in
    if (ion != 0) && (getx (u_x st) j == 0) then initx ion (ui_ion0 I ^+ 2) j st else st
  else st.
Definition ud_init (f i : nat) (st : ust) : ust :=
  let s := nth Z0 (ui_sat I) i in
  let '(bias, ion) := ud_bias f i in
  init_ion s ion (init_amb f s bias st).

(** pppssr.py:317-464: one frequency, and the whole of udstate *)
Definition ud_freq (st : ust) (f : nat) : ust :=
  let st := foldl (fun st k => ud_reset f (Z.of_nat k) st) st (iota 1 (Z.to_nat MAXSAT)) in
  foldl (fun st i => ud_init f i st) st (iota 0 (size (ui_sat I))).
Definition udstate (st : ust) : ust := foldl ud_freq (propagate st) (iota 0 (nf o)).
End Ud.

(* ---------- carrier smoothing ---------- *)
Section Cs.
Variable F : realFieldType.
Variable U : Z.
(** the dictionaries cs_cnt, Ps_, Lp_, cs_t0 *)
Record csst := CST { cs_cnt : dict Z nat; cs_ps : dict Z F; cs_lp : dict Z F; cs_t0 : dict Z gtime }.
Definition cs_empty : csst := CST nil nil nil nil.
(** pntpos.py:186-211; [ns], [dt] (ticks), [th] are the optional arguments; [None] = KeyError *)
Definition csmooth (ns : nat) (dt : Z) (th : F) (t : gtime) (sat : Z) (Pm Lm : F) (s : csst) : option (F * csst) :=
  if (Pm == 0) || (Lm == 0) then
    Some (Pm, CST (zset sat 1%N (cs_cnt s)) (cs_ps s) (cs_lp s) (cs_t0 s))
  else
  do s <- (match zget sat (cs_cnt s) with
           | None => Some (CST (zset sat 1%N (cs_cnt s)) (cs_ps s) (cs_lp s) (cs_t0 s))
           | Some _ => do t0 <- zget sat (cs_t0 s);
                       if Z.gtb (timediff U t t0) dt
                       then Some (CST (zset sat 1%N (cs_cnt s)) (cs_ps s) (cs_lp s) (cs_t0 s)) else Some s
           end);
  do c <- zget sat (cs_cnt s);
  do cp <- (if c == 1%N then Some (c, Pm) else
            do ps <- zget sat (cs_ps s);
            do lp <- zget sat (cs_lp s);
            let Pp := ps + (Lm - lp) in
            if `|Pm - Pp| < th then
              let alp := 1 / c%:R in Some (c, alp * Pm + (1 - alp) * Pp)
            else Some (1%N, Pm));
  let '(c, p) := cp in
  Some (p, CST (zset sat (minn c.+1 ns) (cs_cnt s)) (zset sat p (cs_ps s)) (zset sat Lm (cs_lp s)) (zset sat t (cs_t0 s))).
End Cs.
