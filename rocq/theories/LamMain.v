(** The whole chain: factorisation, reduction, search, back transformation. *)
From Verif Require Import LamModel LamSpec FieldTac LamRed LamLdl LamSearch.
From mathcomp Require Import all_ssreflect all_algebra zify.
Set Implicit Arguments.
Unset Strict Implicit.
Unset Printing Implicit Defensive.
Import Order.TTheory GRing.Theory Num.Theory.
Local Open Scope ring_scope.

Section Main.
Variable F : realFieldType.
Variables (rnd : F -> int) (sq : F -> F).
Variables (n nc : nat).
Hypothesis near : nearest rnd.
Hypothesis n0 : (0 < n)%N.
Hypothesis nc0 : (0 < nc)%N.

(** a change of the integer basis does not change distances *)
Lemma sqdist_trans (Q : 'M[F]_n) (Z : 'M[int]_n) a y :
  Z \in unitmx -> Q \in unitmx ->
  sqdist ((map_mx intr Z)^T *m Q *m map_mx intr Z) ((map_mx intr Z)^T *m a) (Z^T *m y) = sqdist Q a y.
Proof.
move=> UZ UQ; set W : 'M[F]_n := map_mx intr Z.
have UW : W \in unitmx by rewrite /W unitmxE det_map_mx; apply: rmorph_unit; rewrite -unitmxE.
have em : map_mx intr (Z^T *m y) = W^T *m map_mx intr y :> 'cV[F]_n by rewrite map_mxM /= map_trmx.
rewrite /sqdist em -/W -mulmxBr; set e := _ - a.
have e1 : W^T *m e = (W^T *m Q *m W) *m (invmx W *m (invmx Q *m e)).
  by rewrite -!mulmxA (mulKVmx UW) (mulKVmx UQ).
have UP : W^T *m Q *m W \in unitmx by rewrite !unitmx_mul unitmx_tr UW UQ.
by rewrite {2}e1 mulmxA (mulmxKV UP) trmx_mul trmxK !mulmxA (mulmxK UW).
Qed.
Lemma det_unit (Z : 'M[int]_n) : \det Z = 1 \/ \det Z = -1 -> Z \in unitmx.
Proof. by rewrite unitmxE => -[->|->]. Qed.
Lemma cv_back Z z : cv n (back n Z z) = invmx (mx n Z)^T *m cv n z.
Proof.
apply/colP => i; rewrite !mxE /back; apply: eq_bigr => j _.
by rewrite valK mxE.
Qed.
Lemma cv_zhat Z (a : vec F) : cv n (zhat_of n Z a) = (imx F n Z)^T *m cv n a.
Proof. by apply/colP => i; rewrite !mxE; apply: eq_bigr => j _; rewrite !mxE. Qed.

Theorem mlambda1_closest fuel eps tol chi (ahat : vec F) (Q : mat F) R :
  0 < eps ->
  (forall i j, (i < n)%N -> (j < n)%N -> Q i j = Q j i) ->
  (forall L d, ldldecom sq eps n Q = Some (L, d) -> forall i, (i < n)%N -> sq (d i) ^+ 2 = d i) ->
  mlambda1 rnd sq fuel eps tol chi n nc ahat Q = Some R ->
  (exists l : seq 'cV[int]_n, uniq l /\ size l = nc /\ all (fun z => sqdist (mx n Q) (cv n ahat) z < chi) l) ->
  closest_integers (mx n Q) (cv n ahat) nc [seq (cv n zs.1, zs.2) | zs <- R].
Proof.
move=> ep sym sqd; rewrite /mlambda1; case e1 : ldldecom => [[L d]|] //.
case e2 : reduction => [r|] //; case e3 : estimILS => [R0|] //= [<-] [l [lu [ls la]]].
have [uL [pd eQ]] := ldldecom_ok sym ep e1 (sqd _ _ e1).
have [dt [tr [uL' [pd' _]]]] := reduction_ok near uL pd e2.
set Z := mx n (r_Z r) in dt.
have UZ : Z \in unitmx by apply: det_unit.
have UQ : mx n Q \in unitmx.
  have [L1 Lz] := uL.
  have UL : mx n L \in unitmx.
    rewrite unitmxE det_trig; last by apply/is_trig_mxP => i j ij; rewrite mxE Lz //; have := ltn_ord j; lia.
    by rewrite big1 ?unitr1 // => i _; rewrite mxE L1.
  rewrite -eQ /ldl !unitmx_mul unitmx_tr UL /= andbT unitmxE det_diag unitfE.
  by apply/prodf_neq0 => i _; rewrite mxE gt_eqF // pd.
have E y : sqdist (ldl n (r_L r) (r_d r)) (cv n (zhat_of n (r_Z r) ahat)) (Z^T *m y) = sqdist (mx n Q) (cv n ahat) y.
  by rewrite tr eQ cv_zhat -(sqdist_trans (cv n ahat) y UZ UQ).
have UT : Z^T \in unitmx by rewrite unitmx_tr.
have [|S1 [S2 [S3 [S4 S5]]]] := estimILS_closest near pd' n0 nc0 uL' e3.
  exists (map (mulmx Z^T) l); rewrite map_inj_uniq; last exact: can_inj (mulKmx UT).
  by rewrite size_map all_map; split=> //; split=> //; apply/allP => z /(allP la) /=; rewrite E.
have asvE : [seq (cv n zs.1, zs.2) | zs <- [seq (back n (r_Z r) zs.1, zs.2) | zs <- R0]]
   = [seq (invmx Z^T *m zs.1, zs.2) | zs <- asv n R0].
  by rewrite /asv -!map_comp; apply: eq_map => zs /=; rewrite cv_back.
rewrite asvE; set R1 := asv n R0 in S1 S2 S3 S4 S5 *.
split; first by rewrite size_map.
split.
  have -> : map fst [seq (invmx Z^T *m zs.1, zs.2) | zs <- R1] = map (mulmx (invmx Z^T)) (map fst R1).
    by rewrite -!map_comp; apply: eq_map.
  rewrite map_inj_uniq //; exact: can_inj (mulKVmx UT).
split; first by rewrite -map_comp (eq_map (f2 := snd)).
split.
  move=> zs /mapP[zs0 h ->] /=; rewrite -E mulKVmx // -S4 //.
move=> z nz zs /mapP[zs0 h ->] /=; rewrite -E; apply: S5 => //.
apply/negP => /mapP[zs1 h1 e]; case/negP: nz; apply/mapP.
exists (invmx Z^T *m zs1.1, zs1.2) => /=; first by apply/mapP; exists zs1.
by rewrite -e mulKmx.
Qed.
End Main.
