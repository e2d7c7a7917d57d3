(** C42, C61: integer ambiguity estimation *)
From Verif Require Import LamModel LamSpec LamRed LamLdl LamSearch LamMain.
From mathcomp Require Import all_ssreflect all_algebra zify.
Set Implicit Arguments.
Unset Strict Implicit.
Unset Printing Implicit Defensive.
Import Order.TTheory GRing.Theory Num.Theory.
Local Open Scope ring_scope.

(** C42. The factorisation: L' D L is the given matrix, L unit lower triangular, d positive. *)
Theorem C42_factor (F : realFieldType) (sq : F -> F) (n : nat) (Q L : mat F) (d : vec F) (eps : F) :
  (forall i j, (i < n)%N -> (j < n)%N -> Q i j = Q j i) ->
  0 < eps -> ldldecom sq eps n Q = Some (L, d) ->
  (forall i, (i < n)%N -> sq (d i) ^+ 2 = d i) ->
  unit_lower n L /\ positive n d /\ ldl n L d = mx n Q.
Proof. by move=> sym; exact: (ldldecom_ok sym). Qed.
Print Assumptions C42_factor.

(** C42. The reduction: an integer matrix of determinant +-1, and the factors of the transformed matrix;
    the entries of L are at most one half and the order of d is the one asked for. *)
Theorem C42_reduction (F : realFieldType) (rnd : F -> int) (n : nat) (tol : F) fuel (L : mat F) (d : vec F) r :
  nearest rnd -> unit_lower n L -> positive n d ->
  reduction rnd fuel tol n L d = Some r ->
  (\det (mx n (r_Z r)) = 1 \/ \det (mx n (r_Z r)) = -1) /\
  ldl n (r_L r) (r_d r) = (map_mx intr (mx n (r_Z r)))^T *m ldl n L d *m map_mx intr (mx n (r_Z r)) /\
  unit_lower n (r_L r) /\ positive n (r_d r) /\
  (forall i j, (j < i < n)%N -> `|r_L r i j| <= 2%:R^-1) /\
  (forall j, (j.+1 < n)%N -> r_d r j.+1 <= r_d r j + r_L r j.+1 j ^+ 2 * r_d r j.+1 + tol).
Proof. by move=> near uL pd H; exact: (reduction_ok near uL pd H). Qed.
Print Assumptions C42_reduction.

(** C61. The two searches: the integer vectors closest to the float solution in the metric of the
    covariance matrix, with their squared distances, nearest first.  [chi] is 1e18. *)
Theorem C61_msearch (F : realFieldType) (rnd : F -> int) (n nc : nat) (L : mat F) (d ahat : vec F) chi fuel R :
  nearest rnd -> positive n d -> (0 < n)%N -> (0 < nc)%N -> unit_lower n L ->
  msearch rnd fuel chi n nc L d ahat = Some R ->
  (exists l : seq 'cV[int]_n, uniq l /\ size l = nc /\ all (fun z => sqdist (ldl n L d) (cv n ahat) z < chi) l) ->
  closest_integers (ldl n L d) (cv n ahat) nc [seq (cv n zs.1, zs.2) | zs <- R].
Proof. by move=> near pd n0 nc0 uL; exact: (msearch_closest near pd n0 nc0 uL). Qed.
Print Assumptions C61_msearch.

Theorem C61_estimILS (F : realFieldType) (rnd : F -> int) (n nc : nat) (L : mat F) (d ahat : vec F) chi fuel R :
  nearest rnd -> positive n d -> (0 < n)%N -> (0 < nc)%N -> unit_lower n L ->
  estimILS rnd fuel chi n nc L d ahat = Some R ->
  (exists l : seq 'cV[int]_n, uniq l /\ size l = nc /\ all (fun z => sqdist (ldl n L d) (cv n ahat) z < chi) l) ->
  closest_integers (ldl n L d) (cv n ahat) nc [seq (cv n zs.1, zs.2) | zs <- R].
Proof. by move=> near pd n0 nc0 uL; exact: (estimILS_closest near pd n0 nc0 uL). Qed.
Print Assumptions C61_estimILS.

(** C61. The whole function, mode 1: the same for the given covariance matrix. *)
Theorem C61_mlambda (F : realFieldType) (rnd : F -> int) (sq : F -> F) (n nc : nat) fuel (eps tol chi : F)
    (ahat : vec F) (Q : mat F) R :
  nearest rnd -> (0 < n)%N -> (0 < nc)%N -> 0 < eps ->
  (forall i j, (i < n)%N -> (j < n)%N -> Q i j = Q j i) ->
  (forall L d, ldldecom sq eps n Q = Some (L, d) -> forall i, (i < n)%N -> sq (d i) ^+ 2 = d i) ->
  mlambda1 rnd sq fuel eps tol chi n nc ahat Q = Some R ->
  (exists l : seq 'cV[int]_n, uniq l /\ size l = nc /\ all (fun z => sqdist (mx n Q) (cv n ahat) z < chi) l) ->
  closest_integers (mx n Q) (cv n ahat) nc [seq (cv n zs.1, zs.2) | zs <- R].
Proof. by move=> near n0 nc0; exact: (mlambda1_closest near n0 nc0). Qed.
Print Assumptions C61_mlambda.

(* ---------- examples over the rational numbers ---------- *)
Definition QQ := [realFieldType of rat].
Definition q (a : int) (b : nat) : QQ := a%:~R / b%:R.
Definition rndq (x : rat) : int := ((2 * numq x + denq x) %/ (2 * denq x))%Z.
Lemma rndq_nearest : nearest (F := QQ) rndq.
Proof.
move=> x; rewrite /rndq; set a := numq x; set b := denq x.
have b0 : 0 < b by exact: denq_gt0.
have b2 : 2 * b != 0 by lia.
set r := (_ %/ _)%Z; have e := divz_eq (2 * a + b) (2 * b).
have m0 := modz_ge0 (2 * a + b) b2.
have m1 : ((2 * a + b) %% (2 * b))%Z < 2 * b by apply: ltz_pmod; lia.
set m := (_ %% _)%Z in e m0 m1; rewrite -/r in e.
have xb : x = a%:~R / b%:~R by rewrite divq_num_den.
have bq : 0 < b%:~R :> rat by rewrite ltr0z.
have two : 0 < 2%:R :> rat by rewrite ltr0n.
rewrite -(ler_pmul2r (x := 2%:R * b%:~R)) ?mulr_gt0 //.
rewrite -{1}(gtr0_norm (mulr_gt0 two bq)) -normrM.
have -> : (x - r%:~R) * (2%:R * b%:~R) = (2 * a - r * (2 * b))%:~R.
  rewrite {1}xb mulrBl rmorphB /= !intrM; congr (_ - _).
  by rewrite mulrCA divfK ?gt_eqF.
have -> : 2%:R^-1 * (2%:R * b%:~R) = b%:~R :> rat by rewrite mulKf // gt_eqF.
by rewrite -intr_norm ler_int; lia.
Qed.
Definition L2 (k : QQ) : mat QQ := fun i j => if i == j then 1 else if (i == 1%N) && (j == 0%N) then k else 0.
Definition v2 (a b : QQ) : vec QQ := fun i => if i == 0%N then a else b.
Definition show (R : option (seq (vec int * QQ))) := omap (map (fun zs => ([:: zs.1 0%N; zs.1 1%N], zs.2))) R.

(** not the componentwise rounding, which is (0, 1) *)
Example search_example :
  show (estimILS rndq 20 (q 20 1) 2 2 (L2 1) (v2 (q 1 10) 1) (v2 (q 2 5) (q 3 5)))
  = Some [:: ([:: 1; 1], q 14 25); ([:: 0; 0], q 19 25)]
  /\ show (msearch rndq 20 (q 20 1) 2 2 (L2 1) (v2 (q 1 10) 1) (v2 (q 2 5) (q 3 5)))
  = Some [:: ([:: 1; 1], q 14 25); ([:: 0; 0], q 19 25)].
Proof. by vm_compute. Qed.
Example reduction_example :
  omap (fun r : rst QQ => ([:: r_L r 1%N 0%N; r_d r 0%N; r_d r 1%N], [:: r_Z r 0%N 0%N; r_Z r 0%N 1%N; r_Z r 1%N 0%N; r_Z r 1%N 1%N]))
    (reduction rndq 20 0 2 (L2 (q 7 5)) (v2 (q 1 2) 2%:R))
  = Some ([:: q (-1) 41; q 50 41; q 41 50], [:: -1; 1; 2; -1]).
Proof. by vm_compute. Qed.
Example factor_example :
  let Q : mat QQ := fun i j => if (i == 0%N) && (j == 0%N) then 5%:R else if i == j then 4%:R else 2%:R in
  omap (fun r : mat QQ * vec QQ => [:: r.1 1%N 0%N; r.2 0%N; r.2 1%N]) (ldldecom (fun _ => 2%:R) (q 1 10) 2 Q)
  = Some [:: q 1 2; 4%:R; 4%:R].
Proof. by vm_compute. Qed.

(** C61 fails in mode 3: the norms returned beside the vectors are those of another problem *)
Lemma qn2 (L : mat QQ) (d a : vec QQ) (z : vec int) :
  qn 2 L d a z = (a 1%N - (z 1%N)%:~R) ^+ 2 / d 1%N
    + (a 0%N - (a 1%N - (z 1%N)%:~R) * L 1%N 0%N - (z 0%N)%:~R) ^+ 2 / d 0%N.
Proof.
have c1 : cond 2 L a z 1 = a 1%N by rewrite /cond big_geq // subr0.
have r1 : res 2 L a z 1%N = a 1%N - (z 1%N)%:~R by rewrite (res_eq L a (n := 2)) // c1.
have c0 : cond 2 L a z 0%N = a 0%N - (a 1%N - (z 1%N)%:~R) * L 1%N 0%N by rewrite /cond big_nat1 r1.
have r0 : res 2 L a z 0%N = a 0%N - (a 1%N - (z 1%N)%:~R) * L 1%N 0%N - (z 0%N)%:~R by rewrite (res_eq L a (n := 2)) // c0.
rewrite /qn (pdS L d a z (k := 0)) // (pdS L d a z (k := 1)) // r0 r1.
by rewrite [pd _ _ _ _ _ _]big_geq // add0r.
Qed.
Theorem C61_mode3_refuted : exists (L : mat QQ) (d zhat : vec QQ) R nfix,
  unit_lower 2 L /\ positive 2 d /\ search3 rndq 20 (q 20 1) 2 2 L d zhat = Some (R, nfix) /\
  ~ closest_integers (ldl 2 L d) (cv 2 zhat) 2 [seq (cv 2 zs.1, zs.2) | zs <- R].
Proof.
set L := L2 0; set d := v2 (q 1 3) (q 1 3); set a := v2 (q 1 2) (q 2 5).
have uL : unit_lower 2 L.
  by split=> [i|i j h]; [rewrite /L /L2 eqxx|case: i j h => [|i] [|[|j]] //=; lia].
have pd : positive 2 d by move=> [|[|i]] h; [vm_compute|vm_compute|lia].
have C : omap (fun x => show (Some x.1)) (search3 rndq 20 (q 20 1) 2 2 L d a)
   = Some (Some [:: ([:: 1; 0], q 1 3); ([:: 0; 0], q 4 3)]) by vm_compute.
move: C; case E : (search3 rndq 20 (q 20 1) 2 2 L d a) => [[R nf]|]; last by case.
move=> C; exists L, d, a, R, nf; split; [exact: uL|split; [exact: pd|split; [exact: E|]]].
move: {E} C; case: R => [|[z s] R]; first by case.
case=> z0 z1 sE _ [_ [_ [_ [H _]]]].
have /H /= : (cv 2 z, s) \in (cv 2 z, s) :: [seq (cv 2 zs.1, zs.2) | zs <- R] by rewrite inE eqxx.
rewrite (sqdist_qn a pd isT (nc := 1) isT uL) qn2 z0 z1 sE; by vm_compute.
Qed.
Print Assumptions C61_mode3_refuted.
