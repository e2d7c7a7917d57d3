(** Theorems about the filter of the PPP and RTK positioning: residuals, measurement covariance, Kalman
    update, time update and carrier smoothing. *)
From Coq Require Import Lia.
From Verif Require Import SatModel TimeModel PppModel FiltModel FiltSpec FiltMatrix FiltUd FiltCs FiltSd.
From mathcomp Require Import all_ssreflect all_algebra.
Set Implicit Arguments.
Unset Strict Implicit.
Unset Printing Implicit Defensive.
Import GRing.Theory Num.Theory.
Local Open Scope ring_scope.

Definition q (a b : nat) : rat := a%:R / b%:R.
(** two GPS satellites and two GLONASS satellites, one phase and one code, everything estimated *)
Definition exI : sdin [realFieldType of rat] :=
  SD (PO Z0 (Zpos 1) (Zpos 1) 1) [:: GPS; GLO] [:: Zpos 1; Zpos 2; prn2sat GLO (Zpos 1); prn2sat GLO (Zpos 2)]
     (fun i => q (i.+1) 5) (fun i k => q (i + k) 4) (fun i f => q (i + f + 1) 3) false (fun _ => false)
     (fun _ _ _ el => 1 + el) (fun m p k c => if p then q (2 + Z.to_nat c) 1 else q 3 1)
     (fun s => if Z.eqb s (prn2sat GLO (Zpos 2)) then Zpos 2 else Zpos 1) (q 6 1)
     (fun el => el) (q 1 100) (q 1 2) (q 1 3) (fun _ => q 10 1).

(* ---------- C57 ---------- *)
(** there is one row for every usable difference; outside GLONASS each residual is the observed minus
    the predicted difference, and the row of H times any state change is the change of the geometry plus
    the predicted difference of that change *)
Theorem C57_rows_partial : forall (F : realFieldType) (I : sdin F),
  epoch I -> (trop_opt (si_o I) = Zpos 1 -> iono_opt (si_o I) = Zpos 1) ->
  exists L, rows_of I L /\
  forall k d0, (k < size L)%N -> fst (fst (fst (nth d0 L k))) <> GLO ->
  let l := nth d0 L k in forall x d,
  let w i := si_mapw I (x Z0) (x (Zpos 1)) (x (Zpos 2)) (si_el I i) in
  nth 0 (sdres I x).1.1 k = observed I l - predicted I w x l /\
  rowdot (si_o I) (nth (fun _ => 0) (sdres I x).1.2 k) d = moved I d l + predicted I w d l.
Proof. move=> F I Ep Lay. exists (labs I). split; [exact: labs_rows|exact: sd_rows]. Qed.
Print Assumptions C57_rows_partial.
Example C57_case :
  (sdres exI (fun k => q (Z.to_nat k) 7)).1.1 == [:: - q 4 105; q 58 315; q 61 630; q 58 315] /\
  [seq (nth (fun _ => 0) (sdres exI (fun k => q (Z.to_nat k) 7)).1.2 0) (Z.of_nat k) | k <- [:: 0; 1; 2; 3; 4; 5; 6; 237; 238]%N] ==
    [:: - q 1 4; - q 1 4; - q 1 4; q 1 5; 1; -1; 0; - q 3 1; q 3 1].
Proof. by vm_compute. Qed.
(** full statement: the same for every constellation.  For GLONASS the residual uses the wavelength of the
    reference satellite for both ambiguities and H that of each satellite, so H is not the derivative. *)
Theorem C57_glonass_refuted : exists (I : sdin [realFieldType of rat]) k x d,
  epoch I /\ (k < size (sdres I x).1.1)%N /\ d Z0 = 0 /\ d (Zpos 1) = 0 /\ d (Zpos 2) = 0 /\
  nth 0 (sdres I (fun z => x z + d z)).1.1 k <>
  nth 0 (sdres I x).1.1 k - rowdot (si_o I) (nth (fun _ => 0) (sdres I x).1.2 k) d.
Proof.
  exists exI, 2%N, (fun _ => 0), (fun z => if Z.eqb z (at_amb (si_o exI) (prn2sat GLO (Zpos 1)) 0) then 1 else 0).
  split. { split; [|split].
    - repeat constructor; simpl; intuition discriminate.
    - repeat constructor; simpl; intuition discriminate.
    - move=> s /= H. repeat (case: H => [<-|H]; first by split; vm_compute). by []. }
  split; first by vm_compute. do 3 (split; first by vm_compute).
  rewrite dot_delta; [|by vm_compute|by vm_compute].
  apply/eqP. by vm_compute.
Qed.
Print Assumptions C57_glonass_refuted.

(* ---------- C31 ---------- *)
(** every entry of ddcov, for any number of blocks of any sizes *)
Theorem C31_ddcov : forall (F : realFieldType) (nb : seq nat) (Ri Rj : seq F) a b,
  (same_block nb a b -> ddcov nb Ri Rj a b = Ri`_a + (if a == b then Rj`_a else 0)) /\
  (~ same_block nb a b -> ddcov nb Ri Rj a b = 0).
Proof. exact: ddcov_entry. Qed.
Print Assumptions C31_ddcov.
(** it is symmetric exactly when the reference variance is constant in each block *)
Theorem C31_symmetric : forall (F : realFieldType) (nb : seq nat) (Ri Rj : seq F),
  (forall a b, ddcov nb Ri Rj a b = ddcov nb Ri Rj b a) <-> (forall a b, same_block nb a b -> Ri`_a = Ri`_b).
Proof. exact: ddcov_sym. Qed.
Print Assumptions C31_symmetric.
(** the covariance that sdres returns: entry by entry, symmetric, positive semidefinite, and positive
    definite when the noise settings are not zero *)
Theorem C31_sdres : forall (F : realFieldType) (I : sdin F), epoch I -> exists L, rows_of I L /\
  forall x, let R := \matrix_(a < size L, b < size L) (sdres I x).2 a b in
  symm R /\ psd R /\
  (si_err1 I <> 0 -> (forall k, (k < nf (si_o I))%N -> si_eratio I k <> 0) -> posdef R) /\
  forall a b d0, (a < size L)%N -> (b < size L)%N ->
    let '(m, f, i, j) := nth d0 L a in let '(m', f', _, _) := nth d0 L b in
    (sdres I x).2 a b = (if gnss_eqb m m' && (f == f') then sigma2 I f (si_el I i) else 0) +
                        (if a == b then sigma2 I f (si_el I j) else 0).
Proof.
  move=> F I Ep. exists (labs I). split; first exact: labs_rows. move=> x R. case: (Ep) => U _.
  split; first exact: sdres_sym. split; first exact: sdres_psd. split; first exact: sdres_posdef. exact: sd_cov.
Qed.
Print Assumptions C31_sdres.
Example C31_case : let R := ddcov [:: 2; 1]%N [:: q 1 1; q 1 1; q 4 1] [:: q 2 1; q 3 1; q 5 1] in
  [seq [seq R a b | b <- iota 0 4] | a <- iota 0 4] ==
  [:: [:: q 3 1; q 1 1; 0; 0]; [:: q 1 1; q 4 1; 0; 0]; [:: 0; 0; q 9 1; 0]; [:: 0; 0; 0; 0]] /\
  same_block [:: 2; 1]%N 0 1 /\
  (sdres exI (fun _ => 0)).2 0%N 0%N == q 1 4 + q 25 36 + (q 1 4 + q 25 9) /\ (sdres exI (fun _ => 0)).2 0%N 1%N == 0.
Proof. split; first by vm_compute. split; last by split; vm_compute. by exists [::], 2%N, [:: 1%N]. Qed.
(** full statement: symmetric for every list of variances; the first argument alone decides it *)
Theorem C31_symmetric_refuted : exists (nb : seq nat) (Ri Rj : seq rat) a b, ddcov nb Ri Rj a b <> ddcov nb Ri Rj b a.
Proof. exists [:: 2%N], [:: q 1 1; q 2 1], [:: q 1 1; q 1 1], 0%N, 1%N. apply/eqP. by vm_compute. Qed.
Print Assumptions C31_symmetric_refuted.

(* ---------- C47 ---------- *)
Theorem C47_update : forall (F : realFieldType) n m (x : 'cV[F]_n) P (H : 'M[F]_(m, n)) v R x' P' S,
  symm P -> symm R -> kfupdate x P H v R = Some (x', P', S) ->
  exists K : 'M[F]_(n, m),
    S = H *m P *m H^T + R /\ K *m S = P *m H^T /\ x' = x + K *m v /\
    P' = (1%:M - K *m H) *m P *m (1%:M - K *m H)^T + K *m R *m K^T /\ P' = P - K *m H *m P /\ symm P' /\
    (psd P -> psd R -> psd P' /\ psd (P - P') /\
       forall L, psd ((1%:M - L *m H) *m P *m (1%:M - L *m H)^T + L *m R *m L^T - P')).
Proof. exact: kf_ok. Qed.
Print Assumptions C47_update.
Theorem C47_defined : forall (F : realFieldType) n m (x : 'cV[F]_n) P (H : 'M[F]_(m, n)) v R,
  psd P -> posdef R -> kfupdate x P H v R <> None.
Proof. exact: kf_defined. Qed.
Print Assumptions C47_defined.
(** gnss.kfupdate, which works on the states with positive variance only, gives the same result *)
Theorem C47_subset : forall (F : realFieldType) n m (x : 'cV[F]_n) P (H : 'M[F]_(m, n)) v R,
  symm P -> psd P -> symm R -> kfupdate_sub x P H v R = kfupdate x P H v R.
Proof. exact: kfsub_full. Qed.
Print Assumptions C47_subset.
(** the measurement update on the output of sdres does not fail *)
Theorem C47_sdres : forall (F : realFieldType) (I : sdin F) x (P : 'M[F]_(Z.to_nat (nx (si_o I)))), epoch I -> psd P ->
  si_err1 I <> 0 -> (forall k, (k < nf (si_o I))%N -> si_eratio I k <> 0) ->
  let y := sdres I x in let nv := size y.1.1 in
  kfupdate (\col_a x (Z.of_nat a)) P (\matrix_(a < nv, b < Z.to_nat (nx (si_o I))) nth (fun _ => 0) y.1.2 a (Z.of_nat b))
           (\col_(a < nv) y.1.1`_a) (\matrix_(a < nv, b < nv) y.2 a b) <> None.
Proof.
  move=> F I x P Ep pP E1 E2 y nv. apply: kf_defined => //. have := sdres_posdef (proj1 Ep) x E1 E2.
  rewrite -(proj1 (sizes I x)) -/y -/nv. by [].
Qed.
Print Assumptions C47_sdres.
Example C47_case : kfupdate (1%:M : 'M[rat]_1) 1%:M 1%:M 1%:M 1%:M =
  Some ((1 + 2%:R^-1)%:M, (2%:R^-1)%:M, 2%:R%:M).
Proof.
  rewrite /kfupdate !trmx1 !mulmx1. have -> : 1%:M + 1%:M = 2%:R%:M :> 'M[rat]_1 by rewrite -raddfD.
  have -> : (2%:R%:M : 'M[rat]_1) \in unitmx by rewrite unitmxE det_scalar1.
  rewrite invmx_scalar !mul1mx -raddfB tr_scalar_mx -!scalar_mxM -!raddfD /=.
  congr (Some (_, _%:M, _)).
Qed.

(* ---------- C59 ---------- *)
(** initx sets the value and variance of one state, removes its correlations and touches nothing else *)
Theorem C59_initx : forall (F : realFieldType) n (st : ust F n) x0 v0 i (a b : 'I_n),
  let st' := initx x0 v0 i st in
  (nat_of_ord a = i -> u_x st' a 0 = x0 /\ u_P st' a a = v0) /\
  (nat_of_ord a = i -> b <> a -> u_P st' a b = 0 /\ u_P st' b a = 0) /\
  (nat_of_ord a <> i -> u_x st' a 0 = u_x st a 0) /\
  (nat_of_ord a <> i -> nat_of_ord b <> i -> u_P st' a b = u_P st a b) /\
  u_outc st' = u_outc st.
Proof.
  move=> F n st x0 v0 i a b st'. rewrite /st' /initx /= !mxE. split; [|split; [|split; [|split]]] => //.
  - by move=> ->; rewrite eqxx.
  - move=> E N. have Eb : (b == i :> nat) = false by apply/eqP => Eb; apply: N; apply/val_inj; rewrite /= Eb.
    by rewrite E eqxx Eb.
  - by move/eqP/negbTE => ->.
  - by move/eqP/negbTE => -> /eqP/negbTE ->.
Qed.
Print Assumptions C59_initx.
Theorem C59_covariance_partial : forall (F : realFieldType) n (I : udin F) (st : ust F n),
  0 <= ui_tt I -> (forall k, 0 <= ui_q I k) -> symm (u_P st) -> psd (u_P st) ->
  symm (u_P (udstate I st)) /\ psd (u_P (udstate I st)).
Proof. move=> F n I st A B C D. exact: udstate_good. Qed.
Print Assumptions C59_covariance_partial.
Theorem C59_initx_covariance : forall (F : realFieldType) n (st : ust F n) x0 v0 i,
  0 <= v0 -> symm (u_P st) -> psd (u_P st) ->
  symm (u_P (initx x0 v0 i st)) /\ psd (u_P (initx x0 v0 i st)).
Proof. move=> F n st x0 v0 i A B C. exact: initx_good. Qed.
Print Assumptions C59_initx_covariance.
(** positions move with the velocities, and the covariance of position, velocity and zenith delay is that
    of the moved states plus the process noise *)
Theorem C59_motion : forall (F : realFieldType) n (I : udin F) (st : ust F n) (a b : 'I_n),
  let o := ui_o I in
  let count := Z.to_nat (Z.add (base o) (if Z.eqb (trop_opt o) (Zpos 1) then Zpos 1 else Z0)) in
  let P k l := Pat st (Z.of_nat k) (Z.of_nat l) in
  (forall s, List.In s (ui_sat I) -> Z.le (Zpos 1) s /\ Z.le s (Zpos 233)) ->
  (a < count)%N -> (b < count)%N ->
  let moving := Z.ltb Z0 (pmode o) in let t := ui_tt I in
  u_x (udstate I st) a 0 = u_x st a 0 + (if moving && (a < 3)%N then t * xat st (Z.of_nat (a + 3)) else 0) /\
  u_P (udstate I st) a b = P a b +
    (if moving then (if (a < 3)%N then t * P (a + 3)%N b else 0) + (if (b < 3)%N then t * P a (b + 3)%N else 0) +
       (if (a < 3)%N && (b < 3)%N then t ^+ 2 * P (a + 3)%N (b + 3)%N else 0) else 0) +
    (if a == b then ui_q I a * t else 0).
Proof.
  move=> F n I st a b o count P V Ha Hb moving t.
  have Em : moving = ~~ Z.leb (pmode o) Z0 by rewrite /moving Z.leb_antisym negbK.
  have [-> ->] := hd_udstate (I := I) Ha Hb st V. rewrite prop_x prop_P -/o -Em /P /xat /Pat /getx !Nat2Z.id.
  have -> : (a < Z.to_nat (nq o))%N.
  { apply: leq_trans Ha _. apply/leP. rewrite /count /nq /ntrop /niono -/(base o). change MAXSAT with (Zpos 233).
    have : Z.le (Zpos 3) (base o) by rewrite /base; case: ifP.
    by case: (Z.eqb (trop_opt o) _); case: (Z.eqb (iono_opt o) _); lia. }
  rewrite andbT. split=> //. 
Qed.
Print Assumptions C59_motion.

(** full statement: the same for every interval.  When the clock steps back the noise is subtracted. *)
Theorem C59_covariance_refuted : exists (I : udin [realFieldType of rat]) n (st : ust [realFieldType of rat] n),
  ui_tt I < 0 /\ (forall k, 0 <= ui_q I k) /\ symm (u_P st) /\ psd (u_P st) /\ ~ psd (u_P (udstate I st)).
Proof.
  pose I : udin [realFieldType of rat] := UD (PO Z0 Z0 Z0 0) (-1) (fun _ => 1) Z0 [::] (fun _ => false) [::] (fun _ _ => 0) (fun _ _ => 0)
    (fun _ _ _ _ => 1) (fun _ => None) 1 1 1.
  exists I, 3%N, (US 0 0 (fun _ _ => Z0)). split; first by vm_compute. split; first by [].
  split; first by move=> i j; rewrite !mxE. split.
  { move=> u. rewrite big1 // => i _. rewrite big1 // => j _. by rewrite mxE mulr0 mul0r. }
  move=> H. have := H (fun k => if k == 0%N then 1 else 0). rewrite /udstate /=.
  have -> : \sum_(i < 3) \sum_(j < 3) (if i == 0%N :> nat then 1 else 0) *
     (phi 3 I *m 0 *m (phi 3 I)^T + qdiag 3 I) i j * (if j == 0%N :> nat then 1 else 0) = -1 :> rat.
  { rewrite mulmx0 mul0mx add0r. rewrite (bigD1 ord0) //= (bigD1 ord0) //= big1 => [|i Ni].
    - rewrite mxE /= !mul1r mulr1 addr0 big1 ?addr0 // => i Ni. by rewrite big1 // => j _; rewrite (negbTE (Ni : i != 0%N :> nat)) !mul0r.
    - by rewrite (negbTE (Ni : i != 0%N :> nat)) mulr0. }
  by [].
Qed.
Print Assumptions C59_covariance_refuted.
Example C59_case : let st := US (\col_a (a : nat)%:R) (\matrix_(a, b) (a + b)%N%:R) (fun _ _ => Z0) : ust [realFieldType of rat] 3 in
  u_x (initx (q 7 1) (q 4 1) 1 st) (inord 1) 0 = q 7 1 /\ u_P (initx (q 7 1) (q 4 1) 1 st) (inord 1) (inord 2) = 0 /\
  u_P (initx (q 7 1) (q 4 1) 1 st) (inord 2) (inord 2) = q 4 1.
Proof. by rewrite /initx /= !mxE !inordK. Qed.

(* ---------- C60 ---------- *)
(** the life of one ambiguity over an epoch: it is forgotten after an outage or when edited, kept
    otherwise, and started from the observations when it has no value *)
Theorem C60_ambiguity : forall (F : realFieldType) n (I : udin F) (st : ust F n) s f,
  let o := ui_o I in let k := at_amb o s f in let st' := udstate I st in
  n = Z.to_nat (nx o) -> List.NoDup (ui_sat I) ->
  (forall s, List.In s (ui_sat I) -> Z.le (Zpos 1) s /\ Z.le s (Zpos 233)) ->
  Z.le (Zpos 1) s /\ Z.le s (Zpos 233) -> (f < nf o)%N ->
  let forgotten := List.In (fst (sat2prn s)) (ui_sys I) /\ xat st k <> 0 /\
    (Z.le (ui_maxout I) (u_outc st s f) \/ ui_edt I s) in
  exists c v, (forgotten -> c = 0 /\ v = 0) /\ (~ forgotten -> c = xat st k /\ v = Pat st k k) /\
  (~ List.In s (ui_sat I) -> xat st' k = c /\ Pat st' k k = v) /\
  (forall i, (i < size (ui_sat I))%N -> nth Z0 (ui_sat I) i = s -> exists b, first_value I i f b /\
     (b <> 0 -> c = 0 -> xat st' k = b /\ Pat st' k k = ui_n0 I ^+ 2) /\
     (b = 0 \/ c <> 0 -> xat st' k = c /\ Pat st' k k = v)).
Proof.
  move=> F n I st s f o k st' Hn ND V Vs Hf forgotten.
  have Ek : Z.to_nat k = amb I s f.
  { rewrite /amb /k /at_amb /IB /na /ntrop /niono -/(base (ui_o I)) -/o. change MAXSAT with (Zpos 233).
    congr Z.to_nat. lia. }
  have Es (z : ust F n) : sl z (amb I s f) = (xat z k, Pat z k k).
  { rewrite /sl /getx /var /xat /Pat Ek. congr (_, _). by case: insubP. }
  have := @udstate_sl F n I Hn V st s f Vs Hf ND. cbv zeta. rewrite !Es.
  have Eg : getx (u_x st) (amb I s f) = xat st k by rewrite /getx /xat Ek.
  rewrite Eg. set cond := tracked I s && lost I st s f && (xat st k != 0).
  have Ec : reflect forgotten cond.
  { rewrite /cond /tracked /lost. apply: (iffP idP).
    - case/andP=> /andP [A B] /eqP C. split; last split=> //.
      + move: A. elim: (ui_sys I) => //= a l IH /orP [/gnss_eqP ->|/IH]; by [left|right].
      + case/orP: B => [B|->]; [left|by right]. move: B. rewrite Z.gtb_ltb => /Z.ltb_lt. lia.
    - case=> A [C B]. apply/andP; split; last exact/eqP. apply/andP; split.
      + move: A. elim: (ui_sys I) => //= a l IH [->|/IH ->]; by [apply/orP; left; apply/gnss_eqP|rewrite orbT].
      + case: B => [B|->]; last by rewrite orbT. apply/orP; left. rewrite Z.gtb_ltb. apply/Z.ltb_lt. lia. }
  case: Ec => Fg [L1 L2].
  - exists 0, 0. split=> //. split=> //. split; first by move/L1 => -[-> ->].
    move=> i Hi Ei. exists (ud_bias I f i).1. split; first exact: bias_first.
    move: (L2 i Hi Ei). rewrite /= eqxx andbT. case: eqP => B /= [-> ->]; split=> //. by case.
  - exists (xat st k), (Pat st k k). split=> //. split=> //. split; first by move/L1 => -[-> ->].
    move=> i Hi Ei. exists (ud_bias I f i).1. split; first exact: bias_first.
    move: (L2 i Hi Ei). rewrite /=. case: ((ud_bias I f i).1 =P 0) => B /=; [|case: (xat st k =P 0) => C /=] => -[-> ->]; split=> //. by case.
Qed.
Print Assumptions C60_ambiguity.
(** one satellite at range 20 with slant delay 3, frequencies 3 and 2, ambiguities 17 and 23 *)
Definition exU : udin [realFieldType of rat] :=
  UD (PO Z0 (Zpos 1) (Zpos 1) 2) 1 (fun _ => 1) Z0 [:: GPS] (fun _ => false) [:: Zpos 5]
    (fun _ f => if f == 0%N then q 23 1 else q 20 1 + q 9 4 * q 3 1)
    (fun _ f => if f == 0%N then q 17 1 / q 2 1 + q 17 1 else (q 20 1 - q 9 4 * q 3 1) / q 3 1 + q 23 1)
    (fun _ _ k _ => if k == 0%N then q 3 1 else q 2 1) (fun _ => None) (q 6 1) (q 30 1) (q 10 1).
Example C60_case : clean exU 0 (q 20 1) (q 3 1) (fun f => if f == 0%N then q 17 1 else q 23 1) (fun f => if f == 0%N then q 3 1 else q 2 1) /\
  (ud_bias exU 0 0).1 == q 17 1 /\ (ud_bias exU 1 0).1 == q 23 1 /\ (ud_bias exU 1 0).2 == q 3 1.
Proof. split; last by split; [|split]; vm_compute. by move=> [|[|f]] // _; split; apply/eqP; vm_compute. Qed.

(* ---------- C32 ---------- *)
(** each result lies between the measured and the carried code with a weight of at least 1/ns on the
    measured one, and is the measured code after a gap, a missing observation or a jump *)
Theorem C32_smoothed : forall (F : realFieldType) U ns dt (th : F) h c out p, (0 < ns)%N ->
  cs_outs U ns dt th (rcons h c) = Some (rcons out p) -> smoothed U ns dt th h out c p.
Proof. move=> F U ns dt th h c out p N. exact: smoothing. Qed.
Print Assumptions C32_smoothed.
(** satellites do not influence each other *)
Theorem C32_independent : forall (F : realFieldType) U ns dt (th : F) k h out,
  cs_outs U ns dt th h = Some out ->
  cs_outs U ns dt th [seq c <- h | Z.eqb (co_sat c) k] = Some (mask [seq Z.eqb (co_sat c) k | c <- h] out).
Proof. move=> F U ns dt th k h out. exact: outs_independent. Qed.
Print Assumptions C32_independent.
(** without gaps and jumps each of the first ns results is the phase plus the average of code minus phase *)
Theorem C32_average : forall (F : realFieldType) U ns dt (th : F) s h,
  clean_arc U dt th s h -> (size h <= ns)%N ->
  exists out, cs_outs U ns dt th h = Some out /\ size out = size h /\
    forall a d b, h = a ++ d :: b -> nth 0 out (size a) = hatch (rcons a d) (co_l d).
Proof. move=> F U ns dt th s h. exact: arc_ok. Qed.
Print Assumptions C32_average.
(** the filter starts again: after a gap or a jump everything is as if the object were new *)
Theorem C32_restart_gap : forall (F : realFieldType) U ns dt (th : F) h l c0 c k, (0 < ns)%N ->
  all (fun c => Z.eqb (co_sat c) k) (h ++ c0 :: c :: l) -> ~ missing c0 -> ~ missing c ->
  Z.lt dt (timediff U (co_t c) (co_t c0)) ->
  cs_outs U ns dt th (h ++ c0 :: c :: l) =
    match cs_outs U ns dt th (h ++ [:: c0]), cs_outs U ns dt th (c :: l) with
    | Some a, Some b => Some (a ++ b) | _, _ => None end.
Proof. move=> F U ns dt th h l c0 c k N. exact: restart_gap. Qed.
Print Assumptions C32_restart_gap.
Theorem C32_restart_jump : forall (F : realFieldType) U ns dt (th : F) h l c0 c k a, (0 < ns)%N ->
  all (fun c => Z.eqb (co_sat c) k) (h ++ c0 :: c :: l) -> ~ missing c0 -> ~ missing c ->
  cs_outs U ns dt th (h ++ [:: c0]) = Some a ->
  th <= `|co_p c - (last 0 a + (co_l c - co_l c0))| ->
  cs_outs U ns dt th (h ++ c0 :: c :: l) =
    match cs_outs U ns dt th (c :: l) with Some b => Some (a ++ b) | None => None end.
Proof. move=> F U ns dt th h l c0 c k a N. exact: restart_jump. Qed.
Print Assumptions C32_restart_jump.
Theorem C32_restart_missing_partial : forall (F : realFieldType) U ns dt (th : F) h l c0 c k, (0 < ns)%N ->
  all (fun c => Z.eqb (co_sat c) k) (h ++ c0 :: c :: l) -> missing c0 -> ~ missing c ->
  (exists d, List.In d h /\ ~ missing d) ->
  cs_outs U ns dt th (h ++ c0 :: c :: l) =
    match cs_outs U ns dt th (h ++ [:: c0]), cs_outs U ns dt th (c :: l) with
    | Some a, Some b => Some (a ++ b) | _, _ => None end.
Proof. move=> F U ns dt th h l c0 c k N. exact: restart_missing. Qed.
Print Assumptions C32_restart_missing_partial.
Theorem C32_defined_partial : forall (F : realFieldType) U ns dt (th : F) h,
  (forall a c b, h = a ++ c :: b -> missing c -> exists d, List.In d a /\ co_sat d = co_sat c /\ ~ missing d) ->
  cs_outs U ns dt th h <> None.
Proof. move=> F U ns dt th h. exact: outs_defined. Qed.
Print Assumptions C32_defined_partial.
Definition ob (t : Z) (p l : nat) : cobs [realFieldType of rat] := CO (GT t Z0) (Zpos 7) (q p 1) (q l 1).
Example C32_case :
  (cs_outs (Zpos 1) 100 (Zpos 10) (q 5 1)
     [:: ob (Zpos 1) 20 10; ob (Zpos 2) 23 11; ob (Zpos 3) 24 12; ob (Zpos 4) 40 13; ob (Zpos 5) 42 14; ob (Zpos 30) 60 40; ob (Zpos 31) 0 50; ob (Zpos 32) 70 51; ob (Zpos 33) 73 52]
   : option (seq rat)) ==
  Some [:: q 20 1; q 22 1; q 70 3; q 40 1; q 83 2; q 60 1; 0; q 70 1; q 72 1].
Proof. by vm_compute. Qed.
(** full statement: the same without the premise.  When the first observation of a satellite is missing,
    the next complete one raises KeyError (cs_t0 has no entry). *)
Theorem C32_keyerror_refuted : exists h : seq (cobs [realFieldType of rat]),
  cs_outs (Zpos 1) 100 (Zpos 10) (q 5 1 : rat) h = None.
Proof. exists [:: ob (Zpos 1) 0 10; ob (Zpos 2) 20 10]. by vm_compute. Qed.
Print Assumptions C32_keyerror_refuted.
