(** Kalman update, propagation and initialisation: proofs about covariance matrices. *)
From Verif Require Import AbGroup PppModel FiltModel FiltSpec.
From mathcomp Require Import all_ssreflect all_algebra.
Set Implicit Arguments.
Unset Strict Implicit.
Unset Printing Implicit Defensive.
Import Order.POrderTheory GRing.Theory Num.Theory.
Local Open Scope ring_scope.

Section Psd.
Variable F : realFieldType.

Lemma symmP n (A : 'M[F]_n) : symm A <-> A^T = A.
Proof.
  split=> [H|H i j]; first by apply/matrixP=> i j; rewrite mxE H.
  by rewrite -{1}H mxE.
Qed.
Lemma qf_sum n (A : 'M[F]_n) (u : 'cV[F]_n) : (u^T *m A *m u) 0 0 = \sum_(i < n) \sum_(j < n) u i 0 * A i j * u j 0.
Proof.
  rewrite mxE exchange_big /=. apply: eq_bigr=> j _. rewrite mxE mulr_suml.
  by apply: eq_bigr=> i _; rewrite mxE.
Qed.
Lemma psdP n (A : 'M[F]_n) : psd A <-> forall u : 'cV[F]_n, 0 <= (u^T *m A *m u) 0 0.
Proof.
  split=> H u.
  - rewrite qf_sum. 
    have := H (fun k => if insub k is Some a then u a 0 else 0).
    congr (_ <= _). apply: eq_bigr=> i _. apply: eq_bigr=> j _. by rewrite !valK.
  - have := H (\col_i u i). rewrite qf_sum. congr (_ <= _).
    apply: eq_bigr=> i _. apply: eq_bigr=> j _. by rewrite !mxE.
Qed.
Lemma psd_add n (A B : 'M[F]_n) : psd A -> psd B -> psd (A + B).
Proof.
  move=> /psdP HA /psdP HB. apply/psdP=> u. by rewrite mulmxDr mulmxDl mxE addr_ge0.
Qed.
Lemma psd_cong n m (A : 'M[F]_n) (L : 'M[F]_(m, n)) : psd A -> psd (L *m A *m L^T).
Proof.
  move=> /psdP H. apply/psdP=> u. have := H (L^T *m u). by rewrite trmx_mul trmxK !mulmxA.
Qed.
Lemma psd_diag n (d : nat -> F) : (forall i, (i < n)%N -> 0 <= d i) -> psd (\matrix_(i < n, j < n) if i == j then d i else 0).
Proof.
  move=> H u. apply: sumr_ge0=> i _. rewrite (bigD1 i) //= big1 ?addr0.
  - rewrite mxE eqxx. rewrite mulrAC -expr2 mulr_ge0 ?sqr_ge0 //. exact: H.
  - move=> j ji. rewrite mxE eq_sym (negbTE ji). by rewrite mulr0 mul0r.
Qed.
Lemma symm_add n (A B : 'M[F]_n) : symm A -> symm B -> symm (A + B).
Proof. by move=> HA HB i j; rewrite !mxE HA HB. Qed.
Lemma symm_cong n m (A : 'M[F]_n) (L : 'M[F]_(m, n)) : symm A -> symm (L *m A *m L^T).
Proof. by move=> /symmP H; apply/symmP; rewrite !trmx_mul trmxK H mulmxA. Qed.
(** a positive semidefinite symmetric matrix with a zero on the diagonal has a zero row *)
Lemma psd_zero n (A : 'M[F]_n) i j : symm A -> psd A -> A i i = 0 -> A i j = 0.
Proof.
  move=> Hs /psdP H Hi.
  have Q t : 0 <= A j j + 2%:R * t * A i j.
  { have := H (delta_mx j 0 + t *: delta_mx i 0). 
    have -> : (delta_mx j 0 + t *: delta_mx i 0)^T = delta_mx 0 j + t *: delta_mx 0 i :> 'rV[F]_n
      by apply/matrixP=> p q; rewrite !mxE; congr (_ + t * _); rewrite andbC.
    have E a b : delta_mx 0 a *m A *m delta_mx b 0 = (A a b)%:M :> 'M_1.
    { apply/matrixP=> p q. rewrite !ord1 -rowE -colE !mxE. by rewrite eqxx. }
    rewrite !mulmxDl !mulmxDr. rewrite -!scalemxAl -!scalemxAr !E !mxE eqxx Hi /= !mulr0 addr0.
    by rewrite (Hs j i) -addrA -mulr2n mulr1n -mulrA mulr_natl. }
  apply/eqP; apply/negPn/negP=> N.
  have := Q (- (A j j + 1) / (2%:R * A i j)).
  have -> : 2%:R * (- (A j j + 1) / (2%:R * A i j)) * A i j = - (A j j + 1).
  { rewrite mulrAC mulrCA divff ?mulr1 // mulf_neq0 // pnatr_eq0 //. }
  rewrite opprD addrA subrr add0r.
  by rewrite oppr_ge0 ler10.
Qed.
End Psd.

(* ---------- Kalman update ---------- *)
Section Kf.
Variable F : realFieldType.
Variables n m : nat.
Variables (x : 'cV[F]_n) (P : 'M[F]_n) (H : 'M[F]_(m, n)) (v : 'cV[F]_m) (R : 'M[F]_m).
Hypothesis sP : symm P.
Hypothesis sR : symm R.
(** covariance after an update with an arbitrary gain *)
Definition joseph (L : 'M[F]_(n, m)) : 'M[F]_n :=
  (1%:M - L *m H) *m P *m (1%:M - L *m H)^T + L *m R *m L^T.
Let S := H *m (P *m H^T) + R.
Lemma S_sym : S^T = S.
Proof.
  rewrite /S linearD /= (proj1 (symmP R) sR) !trmx_mul trmxK (proj1 (symmP P) sP). by rewrite mulmxA.
Qed.
Lemma joseph_expand (L : 'M[F]_(n, m)) :
  joseph L = P - L *m H *m P - P *m H^T *m L^T + L *m S *m L^T.
Proof.
  rewrite /joseph /S linearB /= trmx1 trmx_mul.
  rewrite mulmxBl mul1mx mulmxBr mulmx1 mulmxBl !mulmxDr !mulmxDl !mulmxA. abgroup.
Qed.
Hypothesis uS : S \in unitmx.
Let K := P *m H^T *m invmx S.
Lemma KS : K *m S = P *m H^T.
Proof. by rewrite /K mulmxKV. Qed.
Lemma SKt : S *m K^T = H *m P.
Proof. by rewrite -{1}S_sym -trmx_mul KS trmx_mul trmxK (proj1 (symmP P) sP). Qed.
Lemma joseph_short : joseph K = P - K *m H *m P.
Proof. by rewrite joseph_expand KS subrK. Qed.
Lemma joseph_gap : P - joseph K = K *m S *m K^T.
Proof. rewrite joseph_short opprB addrCA subrr addr0. by rewrite -mulmxA -SKt mulmxA. Qed.
Lemma joseph_opt L : joseph L - joseph K = (L - K) *m S *m (L - K)^T.
Proof.
  have -> : (L - K)^T = L^T - K^T by apply/matrixP=> i j; rewrite !mxE.
  rewrite joseph_short joseph_expand !mulmxBl !mulmxBr.
  rewrite KS -[L *m S *m K^T]mulmxA SKt mulmxA.
  have -> : P *m H^T *m K^T = K *m H *m P by rewrite -KS -mulmxA SKt mulmxA.
  abgroup.
Qed.
End Kf.

Section KfThm.
Variable F : realFieldType.
Variables n m : nat.
Variables (x : 'cV[F]_n) (P : 'M[F]_n) (H : 'M[F]_(m, n)) (v : 'cV[F]_m) (R : 'M[F]_m).
Lemma kf_ok x' P' S : symm P -> symm R -> kfupdate x P H v R = Some (x', P', S) ->
  exists K : 'M[F]_(n, m),
    S = H *m P *m H^T + R /\ K *m S = P *m H^T /\ x' = x + K *m v /\
    P' = joseph P H R K /\ P' = P - K *m H *m P /\ symm P' /\
    (psd P -> psd R -> psd P' /\ psd (P - P') /\ forall L, psd (joseph P H R L - P')).
Proof.
  move=> sP sR. rewrite /kfupdate. case: ifP => // uS [<- <- <-].
  exists (P *m H^T *m invmx (H *m (P *m H^T) + R)).
  split; first by rewrite mulmxA. split; first by rewrite mulmxKV.
  split=> //. split=> //. split; first exact: (joseph_short uS).
  split. { apply: symm_add; exact: symm_cong. }
  move=> pP pR. 
  have pS : psd (H *m (P *m H^T) + R) by rewrite mulmxA; apply: psd_add => //; exact: psd_cong.
  split. { apply: psd_add; exact: psd_cong. }
  split. { rewrite (joseph_gap sP sR uS). exact: psd_cong. }
  move=> L. rewrite (joseph_opt sP sR uS). exact: psd_cong.
Qed.
(** strictly positive measurement variances: the innovation covariance is invertible *)
Lemma posdef_unit k (A : 'M[F]_k) : posdef A -> A \in unitmx.
Proof.
  move=> [_ H0]. rewrite -row_free_unit -kermx_eq0. apply/eqP/row_matrixP=> i. rewrite row0.
  set w := row i (kermx A). 
  have Hw : w *m A = 0 by rewrite /w -row_mul mulmx_ker row0.
  have Q : \sum_(a < k) \sum_(b < k) (if insub (val a) is Some c then w 0 c else 0) * A a b * (if insub (val b) is Some c then w 0 c else 0) = 0.
  { have := qf_sum A w^T. rewrite trmxK Hw mul0mx mxE => E. rewrite [RHS]E.
    apply: eq_bigr=> a _. apply: eq_bigr=> b _. by rewrite !valK !mxE. }
  apply/matrixP=> a b. rewrite ord1 [RHS]mxE.
  have := H0 (fun a => if insub a is Some c then w 0 c else 0) Q b (ltn_ord b). by rewrite valK.
Qed.
Lemma kf_defined : psd P -> posdef R -> kfupdate x P H v R <> None.
Proof.
  move=> pP [pR dR]. rewrite /kfupdate.
  rewrite (@posdef_unit _ (H *m (P *m H^T) + R)) //. rewrite mulmxA.
  have pQ : psd (H *m P *m H^T) by exact: psd_cong.
  split; first exact: psd_add.
  move=> u Hu. apply: dR. 
  have E : \sum_(i < m) \sum_(j < m) u i * (H *m P *m H^T + R) i j * u j =
    \sum_(i < m) \sum_(j < m) u i * (H *m P *m H^T) i j * u j + \sum_(i < m) \sum_(j < m) u i * R i j * u j.
  { rewrite -big_split. apply: eq_bigr=> i _. rewrite -big_split. apply: eq_bigr=> j _ /=.
    by rewrite mxE mulrDr mulrDl. }
  move: (pQ u) (pR u) => A B. rewrite Hu in E. apply/eqP. rewrite eq_le B andbT.
  rewrite -oppr_ge0. move/eqP: E. by rewrite eq_sym addr_eq0 => /eqP <-.
Qed.
End KfThm.

(* ---------- the variant that drops states without variance ---------- *)
Lemma mxB (G : zmodType) p q (A B : 'M[G]_(p, q)) i j : (A - B) i j = A i j - B i j.
Proof. by rewrite !mxE. Qed.
Section KfSub.
Variable F : realFieldType.
Variables n m : nat.
Variables (x : 'cV[F]_n) (P : 'M[F]_n) (H : 'M[F]_(m, n)) (v : 'cV[F]_m) (R : 'M[F]_m).
Hypothesis sP : symm P.
Hypothesis pP : psd P.
Let f := @kf_sel F n P.
Lemma f_inj : injective f.
Proof.
  move=> a b. rewrite /f /kf_sel => E. apply: (@tuple_uniqP _ _ (in_tuple (kf_ix P)) _) => //.
  by rewrite filter_uniq // enum_uniq.
Qed.
Lemma f_diag a : 0 < P (f a) (f a).
Proof.
  have := mem_tnth a (in_tuple (kf_ix P)). by rewrite mem_filter => /andP [].
Qed.
Lemma f_onto i : 0 < P i i -> exists a, f a = i.
Proof.
  move=> Hi. have : i \in in_tuple (kf_ix P) by rewrite mem_filter Hi mem_enum.
  by case/tnthP=> a ->; exists a.
Qed.
Lemma diag_ge0 i : 0 <= P i i.
Proof.
  have := proj1 (psdP P) pP (delta_mx i 0). by rewrite trmx_delta -rowE -colE !mxE.
Qed.
Let E : 'M[F]_(size (kf_ix P), n) := \matrix_(a, i) (f a == i)%:R.
Lemma E_row (k : nat) (A : 'M[F]_(n, k)) : E *m A = rowsub f A.
Proof.
  apply/matrixP=> a b. rewrite !mxE (bigD1 (f a)) //= mxE eqxx mul1r big1 ?addr0 // => i Hi.
  by rewrite mxE eq_sym (negbTE Hi) mul0r.
Qed.
Lemma E_col (k : nat) (A : 'M[F]_(k, n)) : A *m E^T = colsub f A.
Proof.
  apply/matrixP=> a b. rewrite !mxE (bigD1 (f b)) //= !mxE eqxx mulr1 big1 ?addr0 // => i Hi.
  by rewrite !mxE eq_sym (negbTE Hi) mulr0.
Qed.
Lemma EEt : E *m E^T = 1%:M.
Proof.
  rewrite E_row. apply/matrixP=> a b. rewrite !mxE. by rewrite (inj_eq f_inj) eq_sym.
Qed.
Lemma pickf i : match [pick a | f a == i] with Some a => f a = i | None => P i i = 0 end.
Proof.
  case: pickP=> [a /eqP //|N]. apply/eqP. rewrite eq_le diag_ge0 andbT Order.TotalTheory.leNgt. apply/negP=> H0.
  by case: (f_onto H0)=> a Ha; move: (N a); rewrite Ha eqxx.
Qed.
Lemma Et_vec (k : nat) (A : 'M[F]_(size (kf_ix P), k)) i j :
  (E^T *m A) i j = if [pick a | f a == i] is Some a then A a j else 0.
Proof.
  rewrite mxE. case: pickP=> [a /eqP Ha|N].
  - rewrite (bigD1 a) //= !mxE Ha eqxx mul1r big1 ?addr0 // => b Hb. rewrite !mxE -Ha (inj_eq f_inj) (negbTE Hb) mul0r //.
  - rewrite big1 // => a _. by rewrite !mxE N mul0r.
Qed.
Lemma P_split : P = E^T *m mxsub f f P *m E.
Proof.
  apply/matrixP=> i j. rewrite -mulmxA Et_vec. 
  have C a : (mxsub f f P *m E) a j = if [pick b | f b == j] is Some b then P (f a) (f b) else 0.
  { rewrite mxE. case: pickP=> [b /eqP Hb|N].
    - rewrite (bigD1 b) //= !mxE Hb eqxx mulr1 big1 ?addr0 // => c Hc. rewrite !mxE -Hb (inj_eq f_inj) (negbTE Hc) mulr0 //.
    - rewrite big1 // => b _. by rewrite !mxE N mulr0. }
  move: (pickf i). case: [pick a | f a == i]=> [a Ha|H0]; last exact: psd_zero.
  rewrite C. move: (pickf j). case: [pick b | f b == j]=> [b Hb|H0]; first by rewrite Ha Hb.
  rewrite sP. exact: psd_zero.
Qed.
Lemma kfsub_full : symm R -> kfupdate_sub x P H v R = kfupdate x P H v R.
Proof.
  move=> sR. rewrite /kfupdate_sub /kfupdate -/f.
  set P_ := mxsub f f P. set H_ := colsub f H.
  have HE : H_ = H *m E^T by rewrite E_col.
  have PH : P *m H^T = E^T *m (P_ *m H_^T).
  { rewrite {1}P_split HE trmx_mul trmxK !mulmxA //. }
  have ES : H *m (P *m H^T) = H_ *m (P_ *m H_^T) by rewrite PH HE !mulmxA.
  rewrite ES. case: ifP=> // uS.
  have uS' : H *m (P *m H^T) + R \in unitmx by rewrite ES.
  set S := H_ *m _ + R in uS *.
  set K_ := P_ *m H_^T *m invmx S.
  have KE : P *m H^T *m invmx S = E^T *m K_ by rewrite PH /K_ !mulmxA.
  rewrite KE. congr (Some (_, _, _)).
  - apply/colP=> i. rewrite [LHS]mxE [RHS]mxE -mulmxA Et_vec. move: (pickf i).
    case: [pick a | f a == i]=> [a Ha|H0]; last by rewrite addr0.
    by rewrite mxE mxE Ha.
  - have -> : (1%:M - E^T *m K_ *m H) *m P *m (1%:M - E^T *m K_ *m H)^T + E^T *m K_ *m R *m (E^T *m K_)^T =
      P - E^T *m (K_ *m H_ *m P_) *m E.
    { have := joseph_short uS'. rewrite /joseph ES -/S KE => ->. congr (_ - _).
      transitivity (E^T *m K_ *m H *m (E^T *m P_ *m E)); first by congr (_ *m _); exact: P_split.
      rewrite HE !mulmxA //. }
    apply/matrixP=> i j. rewrite [LHS]mxE mxB -[E^T *m _ *m E]mulmxA Et_vec.
    move: (pickf i). case: [pick a | f a == i]=> [a Ha|H0]; last by rewrite subr0.
    have C (A : 'M[F]_(size (kf_ix P))) : (A *m E) a j = if [pick b | f b == j] is Some b then A a b else 0.
    { rewrite mxE. case: pickP=> [b /eqP Hb|N].
      - rewrite (bigD1 b) //= !mxE Hb eqxx mulr1 big1 ?addr0 // => c Hc. rewrite !mxE -Hb (inj_eq f_inj) (negbTE Hc) mulr0 //.
      - rewrite big1 // => b _. by rewrite !mxE N mulr0. }
    rewrite C. move: (pickf j). case: [pick b | f b == j]=> [b Hb|H0]; last by rewrite subr0.
    by rewrite mxB [P_ a b]mxE Ha Hb.
Qed.
End KfSub.
