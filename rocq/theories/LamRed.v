(** Proofs about the reduction of the ambiguity covariance. *)
From Verif Require Import LamModel LamSpec FieldTac.
From mathcomp Require Import all_ssreflect all_fingroup all_algebra.
Require Import Field.
Set Implicit Arguments.
Unset Strict Implicit.
Unset Printing Implicit Defensive.
Import Order.TTheory GRing.Theory Num.Theory.
Local Open Scope ring_scope.

Section Red.
Variable F : realFieldType.
Variable rnd : F -> int.
Variable n : nat.
Notation rst := (rst F).
Add Field red_field : (f_theory F).

Definition imx (Z : mat int) : 'M[F]_n := map_mx intr (mx n Z).

(** [s'] is obtained from [s] by a unimodular change of the integer basis *)
Definition related (s s' : rst) : Prop :=
  exists E : 'M[int]_n, (\det E = 1 \/ \det E = -1) /\
    mx n (r_Z s') = mx n (r_Z s) *m E /\
    ldl n (r_L s') (r_d s') = (map_mx intr E)^T *m ldl n (r_L s) (r_d s) *m map_mx intr E.
Definition okst (s : rst) : Prop := unit_lower n (r_L s) /\ positive n (r_d s).

Lemma rel_refl s : related s s.
Proof.
exists 1%:M; split; first by left; rewrite det1.
by rewrite mulmx1 map_mx1 trmx1 mul1mx mulmx1.
Qed.
Lemma rel_trans s t u : related s t -> related t u -> related s u.
Proof.
move=> [E [dE [zE lE]]] [G [dG [zG lG]]]; exists (E *m G); split.
  rewrite det_mulmx; case: dE => ->; case: dG => ->; rewrite ?mul1r ?mulr1 ?mulrN ?mulNr ?opprK ?mulr1; by [left | right].
split; first by rewrite zG zE mulmxA.
by rewrite lG lE map_mxM trmx_mul !mulmxA.
Qed.

(** ** column operations *)
Lemma step_rel (j i : nat) s : okst s -> (j < i < n)%N -> related s (red_step rnd j s i) /\ okst (red_step rnd j s i).
Proof.
move=> [[L1 L0] dp] /andP[ji ilt]; rewrite /red_step.
case: ifP => [_|_]; last by split; [exact: rel_refl | split].
set mu := rnd _; have jlt : (j < n)%N by exact: ltn_trans ji ilt.
pose J := Ordinal jlt; pose I := Ordinal ilt.
pose E : 'M[int]_n := 1%:M - mu *: delta_mx I J.
have EL (R : ringType) (f : {rmorphism int -> R}) (A : 'M[R]_n) :
   forall a b, (A *m map_mx f E) a b = A a b - (if b == J then f mu * A a I else 0).
  move=> a b; rewrite mxE.
  under eq_bigr => k _ do rewrite !mxE rmorphB rmorphM !rmorph_nat mulrBr.
  rewrite big_split /= sumrN; congr (_ - _).
    rewrite (bigD1 b) //= eqxx mulr1 big1 ?addr0 // => k /negbTE kb; by rewrite kb mulr0.
  rewrite (bigD1 I) //= eqxx /= big1 ?addr0; last by move=> k /negbTE ->; rewrite /= !mulr0.
  case: (b == J); last by rewrite !mulr0.
  rewrite mulr1.
  have -> : f mu = (mu%:~R : R) by rewrite -[RHS](rmorph_int f) intz.
  by rewrite mulrzr mulrzl.
split; last first.
  split; last by [].
  split=> [a aln|a b /andP[ab bln]] /=.
    case: ifP => [/andP[/eqP -> ij]|_]; last exact: L1.
    by exfalso; move: ij; rewrite leqNgt ji.
  case: ifP => [/andP[/eqP bj ia]|_]; last by apply: L0; rewrite ab.
  exfalso; move: ab; rewrite bj => aj; by move: (leq_ltn_trans ia aj); rewrite ltnNge (ltnW ji).
exists E; split.
  left; have trE : is_trig_mx E.
    apply/is_trig_mxP => a b ab; rewrite !mxE.
    have /negbTE -> : a != b by rewrite neq_ltn ab.
    case aI : (a == I) => /=; last by rewrite mulr0 subr0.
    case bJ : (b == J) => /=; last by rewrite mulr0 subr0.
    exfalso; move: ab; rewrite (eqP aI) (eqP bJ) /= ltnNge; by rewrite (ltnW ji).
  rewrite (det_trig trE) big1 // => a _; rewrite !mxE eqxx.
  case aI : (a == I) => /=; last by rewrite mulr0 subr0.
  have /negbTE -> : a != J by rewrite (eqP aI) -val_eqE /= gtn_eqF.
  by rewrite mulr0 subr0.
split.
  apply/matrixP => a b.
  have := EL _ [rmorphism of (@idfun int)] (mx n (r_Z s)) a b.
  have -> : map_mx idfun E = E by apply/matrixP => x y; rewrite mxE.
  move=> ->; rewrite !mxE /= -val_eqE /=.
  by case: ifP; rewrite ?subr0.
rewrite /ldl /=; have -> : mx n (fun a b => if (b == j) && (i <= a)%N then r_L s a b - mu%:~R * r_L s a i else r_L s a b)
        = mx n (r_L s) *m map_mx intr E.
  apply/matrixP => a b; rewrite (EL _ [rmorphism of intr]) !mxE -val_eqE /=.
  case: (b == j :> nat) => /=; last by rewrite subr0.
  case: leqP => // ai; by rewrite (L0 a i) ?ai ?ilt // mulr0 subr0.
by rewrite trmx_mul !mulmxA.
Qed.

Lemma foldl_step (j : nat) (l : seq nat) s : okst s -> (forall i, i \in l -> (j < i < n)%N) ->
  related s (foldl (red_step rnd j) s l) /\ okst (foldl (red_step rnd j) s l).
Proof.
elim: l s => [|i l IH] s ok H /=; first by split; [exact: rel_refl|].
have [r o] := step_rel ok (H i (mem_head _ _)).
have [r' o'] := IH _ o (fun k kl => H k (mem_behead (s := i :: l) kl)).
split=> //; exact: rel_trans r r'.
Qed.
Lemma col_rel (j : nat) s : okst s -> related s (red_col rnd n j s) /\ okst (red_col rnd n j s).
Proof.
move=> ok; apply: foldl_step => // i; rewrite mem_iota => /andP[ji il].
rewrite ji /=; move: il; case: (leqP j.+1 n) => [jn|nj]; first by rewrite subnKC.
by rewrite (eqP (ltnW nj : (n - j.+1)%N == 0%N)) addn0 => h; exfalso; move: (leq_trans h ji); rewrite ltnn.
Qed.

(** ** permutation *)
Definition sw (j a : nat) : nat := if a == j then j.+1 else if a == j.+1 then j else a.

Lemma delta_pos (j : nat) s : okst s -> (j.+1 < n)%N -> 0 < delta_of j s.
Proof.
move=> [_ dp] jn; rewrite /delta_of ltr_paddr ?dp ?(ltnW jn) // mulr_ge0 ?sqr_ge0 //.
by rewrite ltW // dp.
Qed.

Lemma perm_row (j l a : nat) s : okst s -> (j.+1 < n)%N -> (l < n)%N -> (a < n)%N ->
  r_L (permute j s) l a =
  (if l == j then - r_L s j.+1 j * r_L s j (sw j a) + r_L s j.+1 (sw j a)
   else if l == j.+1 then r_d s j / delta_of j s * r_L s j (sw j a)
          + r_d s j.+1 * r_L s j.+1 j / delta_of j s * r_L s j.+1 (sw j a)
   else r_L s l (sw j a)).
Proof.
move=> ok jn ln an; have dl := delta_pos ok jn; case: ok => [[L1 L0] dp].
have jn' : (j < n)%N by exact: ltnW.
rewrite /permute /= /sw; case: (ltngtP a j) => [aj|ja|->]; rewrite ?eqxx.
- have -> : (a == j.+1) = false by rewrite ltn_eqF // (ltn_trans aj).
  by case: (l == j) => //; [rewrite mul1r|]; case: (l == j.+1) => //; case: ifP.
- case: (l =P j) => [->|lj].
    case: (a =P j.+1) => [->|aj1]; first by rewrite L1 // mulr1 addNr L0 // ltnSn jn.
    have aj2 : (j.+1 < a)%N by rewrite ltn_neqAle eq_sym ja andbT; apply/eqP.
    by rewrite (L0 j a) ?ja // (L0 j.+1 a) ?aj2 // mulr0 addr0.
  case: (l =P j.+1) => [->|lj1].
    case: (a =P j.+1) => [->|aj1].
      rewrite !L1 // mulr1 /delta_of; move: dl; rewrite /delta_of => dl.
      have D0 : r_d s j + r_L s j.+1 j ^+ 2 * r_d s j.+1 <> 0 by apply/eqP; rewrite gt_eqF.
      rewrite expr2 in D0 *. mcfix; field. exact: D0.
    have aj2 : (j.+1 < a)%N by rewrite ltn_neqAle eq_sym ja andbT; apply/eqP.
    by rewrite (L0 j a) ?ja // (L0 j.+1 a) ?aj2 // !mulr0 addr0.
  case: (leqP j.+2 l) => lj2; first by case: ifP.
  case: (a =P j.+1) => [->|aj1] //.
  have {}lj2 : (l < j)%N.
    by move: lj2; rewrite ltnS leq_eqVlt (introF eqP lj1) /= ltnS leq_eqVlt (introF eqP lj).
  by rewrite !L0 // ?lj2 ?jn' // (ltn_trans lj2) ?ltnSn.
- case: (l =P j) => [->|lj]; rewrite ?ltnn.
    by rewrite !L1 // (L0 j j.+1) ?ltnSn ?jn // mulr0 add0r.
  case: (l =P j.+1) => [_|lj1]; rewrite ?ltnn.
    by rewrite (L0 j j.+1) ?ltnSn ?jn // mulr0 add0r L1 // mulr1.
  case: (leqP j.+2 l) => // lj2.
  have {}lj2 : (l < j)%N.
    by move: lj2; rewrite ltnS leq_eqVlt (introF eqP lj1) /= ltnS leq_eqVlt (introF eqP lj).
  by rewrite !L0 // ?lj2 ?jn' // (ltn_trans lj2) ?ltnSn.
Qed.

Lemma perm_rel (j : nat) s : okst s -> (j.+1 < n)%N -> related s (permute j s) /\ okst (permute j s).
Proof.
move=> ok jn; have dl := delta_pos ok jn; have jn' : (j < n)%N by exact: ltnW.
pose J := Ordinal jn'; pose J1 := Ordinal jn.
have JJ : J != J1 by rewrite -val_eqE /= ltn_eqF.
have swp (a : 'I_n) : val (tperm J J1 a) = sw j a.
  rewrite /sw; case: tpermP => [->|->|/eqP aJ /eqP aJ1] /=; rewrite ?eqxx //.
    by rewrite gtn_eqF.
  by move: aJ aJ1; rewrite -!val_eqE /= => /negbTE -> /negbTE ->.
have pr := perm_row ok jn; case: (ok) => [[L1 L0] dp].
split.
  exists (tperm_mx J J1); split; first by right; rewrite /tperm_mx det_perm odd_tperm JJ expr1.
  split.
    rewrite -xcolE; apply/matrixP => a b; rewrite !mxE swp /= /sw.
    by case: ifP => // _; case: ifP.
  have -> : map_mx intr (tperm_mx J J1) = tperm_mx J J1 :> 'M[F]_n by rewrite map_tperm_mx.
  rewrite -xcolE tr_tperm_mx -xrowE; apply/matrixP => a b.
  rewrite [RHS]mxE [RHS]mxE.
  rewrite /ldl !mxE; apply: etrans (etrans _ (eq_bigr _ _)).
  3: { move=> l _; rewrite mul_mx_diag !mxE. reflexivity. }
  2: { reflexivity. }
  under eq_bigr => l _ do rewrite mul_mx_diag !mxE !pr //.
  rewrite (bigD1 J) //= (bigD1 J1) /=; last by rewrite eq_sym.
  rewrite [RHS](bigD1 J) //= [in RHS](bigD1 J1) /=; last by rewrite eq_sym.
  rewrite !addrA; congr (_ + _).
    rewrite !eqxx gtn_eqF // !swp /vset eqxx ltn_eqF // eqxx.
    move: dl; rewrite /delta_of; set l := r_L s j.+1 j; set u := r_L s j _; set u' := r_L s j _; set v := r_L s j.+1 _; set v' := r_L s j.+1 _; set dj := r_d s j; set dk := r_d s j.+1 => dl.
    have D0 : dj + l ^+ 2 * dk <> 0 by apply/eqP; rewrite gt_eqF.
    rewrite expr2 in D0 *. mcfix; field. exact: D0.
  apply: eq_bigr => l /andP[lJ lJ1].
  by rewrite !swp /vset -!val_eqE /= in lJ lJ1 *; rewrite (negbTE lJ) (negbTE lJ1).
split.
  split=> [a an|a b /andP[ab bn]].
    rewrite pr // /sw; case: (a =P j) => [_|aj].
      by rewrite L1 // (L0 j j.+1) ?ltnSn ?jn // mulr0 add0r.
    case: (a =P j.+1) => [_|aj1]; last by rewrite L1.
    rewrite !L1 // mulr1 /delta_of; move: dl; rewrite /delta_of => dl.
    have D0 : r_d s j + r_L s j.+1 j ^+ 2 * r_d s j.+1 <> 0 by apply/eqP; rewrite gt_eqF.
    by rewrite expr2 in D0 *; mcfix; field; exact: D0.
  have an : (a < n)%N by exact: ltn_trans ab bn.
  rewrite /permute /=; case: (a =P j) => [aj|aj].
    by rewrite ltnNge -aj (ltnW ab) /= L0 ?ab ?bn // -aj ab.
  case: (a =P j.+1) => [aj1|aj1].
    have jb : (j < b)%N by rewrite -ltnS -aj1; exact: leqW.
    by rewrite ltnNge (ltnW jb) /= gtn_eqF // L0 // ab.
  case: (leqP j.+2 a) => [ja|_]; last by rewrite L0 // ab.
  have jb : (j.+1 < b)%N by exact: leq_trans ja (ltnW ab).
  by rewrite !gtn_eqF ?(ltnW jb) // L0 // ab.
move=> i ilt; rewrite /permute /= /vset; case: eqP => [_|_] //; case: eqP => [_|_]; last exact: dp.
by rewrite mulr_gt0 ?dp // divr_gt0 ?dp.
Qed.

(** ** the loop *)
Hypothesis near : nearest rnd.
Variable tol : F.

(** column [j] has no entry above one half, and the ordering condition at [j] holds *)
Definition small (s : rst) (j : nat) : Prop := forall i, (j < i < n)%N -> `|r_L s i j| <= 2%:R^-1.
Definition ordered (s : rst) (j : nat) : Prop := r_d s j.+1 <= delta_of j s + tol.

Lemma step_other (j i a b : nat) s : b != j -> r_L (red_step rnd j s i) a b = r_L s a b.
Proof. by rewrite /red_step => /negbTE bj; case: ifP => //= _; rewrite bj. Qed.
Lemma step_d (j i : nat) s : r_d (red_step rnd j s i) = r_d s.
Proof. by rewrite /red_step; case: ifP. Qed.
Lemma step_above (j i a : nat) s : (a < i)%N -> r_L (red_step rnd j s i) a j = r_L s a j.
Proof. by move=> ai; rewrite /red_step; case: ifP => //= _; rewrite leqNgt ai andbF. Qed.
Lemma step_here (j i : nat) s : okst s -> (j < i < n)%N -> `|r_L (red_step rnd j s i) i j| <= 2%:R^-1.
Proof.
move=> [[L1 _] _] /andP[ji il]; rewrite /red_step; case: ifP => [_|/negbFE/eqP m0] /=.
  by rewrite eqxx leqnn /= L1 // mulr1; exact: near.
by have := near (r_L s i j); rewrite m0 subr0.
Qed.

Lemma fold_other (j b : nat) l s a : b != j -> r_L (foldl (red_step rnd j) s l) a b = r_L s a b.
Proof. by move=> bj; elim: l s => //= i l IH s; rewrite IH step_other. Qed.
Lemma fold_d (j : nat) l s : r_d (foldl (red_step rnd j) s l) = r_d s.
Proof. by elim: l s => //= i l IH s; rewrite IH step_d. Qed.
Lemma fold_above (j a : nat) l s : (forall i, i \in l -> (a < i)%N) ->
  r_L (foldl (red_step rnd j) s l) a j = r_L s a j.
Proof.
elim: l s => //= i l IH s H; rewrite IH; first by rewrite step_above // H // mem_head.
by move=> k kl; apply: H; rewrite inE kl orbT.
Qed.
Lemma col_small (j : nat) s : okst s -> small (red_col rnd n j s) j.
Proof.
move=> ok i /andP[ji il]; rewrite /red_col.
have jn : (j.+1 <= n)%N by exact: leq_trans ji (ltnW il).
have -> : (n - j.+1 = (i - j.+1) + (n - i))%N by rewrite [RHS]addnC addnBA // subnK // ltnW.
rewrite iotaD foldl_cat subnKC // -(subnSK il) /=.
set s1 := foldl _ s _.
have [_ ok1] : related s s1 /\ okst s1.
  apply: foldl_step => // k; rewrite mem_iota subnKC // => /andP[jk ki]; by rewrite jk (ltn_trans ki il).
rewrite fold_above; last by move=> k; rewrite mem_iota => /andP[].
by apply: step_here; rewrite // ji il.
Qed.

(** at the head of the loop with indices [j], [k] (plus one): the pairs from [j] on are in order, the
    columns from min(j, k) on are small *)
Definition headinv (s : rst) (j k : nat) : Prop :=
  (forall i, (j <= i)%N -> (i.+1 < n)%N -> ordered s i) /\
  (forall i, (j <= i)%N || (k <= i)%N -> (i.+1 < n)%N -> small s i).

Lemma loop_ok fuel : forall (j k : nat) s r, okst s -> (j < n)%N || (j == 0)%N -> headinv s j k ->
  red_loop rnd fuel tol n j k s = Some r ->
  related s r /\ okst r /\ forall i, (i.+1 < n)%N -> ordered r i /\ small r i.
Proof.
elim: fuel => [|fuel IH] [|j] k s r ok jn [ho hs] //=.
- by move=> [<-]; split; [exact: rel_refl|split=> // i il; split; [exact: ho|exact: hs]].
- by move=> [<-]; split; [exact: rel_refl|split=> // i il; split; [exact: ho|exact: hs]].
rewrite orbF in jn.
set s1 := if (j < k)%N then _ else s.
have [r1 ok1] : related s s1 /\ okst s1.
  by rewrite /s1; case: ifP => _; [exact: col_rel | split; [exact: rel_refl|]].
have d1 : r_d s1 = r_d s by rewrite /s1; case: ifP => // _; rewrite /red_col fold_d.
have o1 a b : b != j -> r_L s1 a b = r_L s a b.
  by move=> bj; rewrite /s1; case: ifP => // _; rewrite /red_col fold_other.
have sm1 i : (j <= i)%N -> (i.+1 < n)%N -> small s1 i.
  rewrite leq_eqVlt => /orP[/eqP <-|ji] il.
    rewrite /s1; case: ifP => [_|kj]; first exact: col_small.
    by apply: hs => //; move: kj; rewrite ltnNge => /negbFE ->; rewrite orbT.
  move=> a ab; rewrite o1 ?gtn_eqF //; apply: (hs i) => //; by rewrite ji.
have or1 i : (j < i)%N -> (i.+1 < n)%N -> ordered s1 i.
  move=> ji il; rewrite /ordered /delta_of d1 o1 ?gtn_eqF //; exact: ho.
case: ltP => [_|le] H.
  have [r2 ok2] := perm_rel ok1 jn.
  have n0 : (0 < n)%N by exact: leq_trans jn.
  have nn : (n.-1 < n)%N || (n.-1 == 0)%N by rewrite prednK ?leqnn.
  have hd : headinv (permute j s1) n.-1 j.+1.
    split=> i; first by move=> h il; exfalso; move: il; rewrite -(prednK n0) !ltnS ltnNge h.
    case/orP=> h il; first by exfalso; move: il; rewrite -(prednK n0) !ltnS ltnNge h.
    move=> a /andP[ia an].
    have aj2 : (j.+1 < a)%N by exact: leq_ltn_trans h ia.
    have aj : (j < a)%N by exact: ltnW.
    rewrite /permute /= (gtn_eqF aj) (gtn_eqF aj2) aj2 (gtn_eqF h).
    case: (i =P j.+1) => [ij|_].
      apply: (sm1 j (leqnn j) _ a); last by rewrite an andbT (ltnW aj2).
      by rewrite -ij ltnW.
    by apply: (sm1 i (ltnW h) il a); rewrite ia an.
  have [r3 [ok3 q]] := IH _ _ _ _ ok2 nn hd H.
  split; last by [].
  exact: rel_trans r1 (rel_trans r2 r3).
have jn2 : (j < n)%N || (j == 0)%N by rewrite (ltnW jn).
have hd : headinv s1 j k.
  split=> i.
    rewrite leq_eqVlt => /orP[/eqP <- _|ji il]; [exact: le | exact: or1].
  case/orP=> h il; first exact: sm1.
  case: (leqP j i) => [ji|ij]; first exact: sm1.
  by move=> a ab; rewrite o1 ?ltn_eqF //; apply: (hs i) => //; rewrite h orbT.
have [r3 [ok3 q]] := IH _ _ _ _ ok1 jn2 hd H.
split; last by [].
exact: rel_trans r1 r3.
Qed.

Lemma reduction_ok fuel L d r : unit_lower n L -> positive n d ->
  reduction rnd fuel tol n L d = Some r ->
  (\det (mx n (r_Z r)) = 1 \/ \det (mx n (r_Z r)) = -1) /\
  ldl n (r_L r) (r_d r) = (imx (r_Z r))^T *m ldl n L d *m imx (r_Z r) /\
  unit_lower n (r_L r) /\ positive n (r_d r) /\
  (forall i j, (j < i < n)%N -> `|r_L r i j| <= 2%:R^-1) /\
  (forall j, (j.+1 < n)%N -> r_d r j.+1 <= r_d r j + r_L r j.+1 j ^+ 2 * r_d r j.+1 + tol).
Proof.
move=> uL pd H; set s := RS L d (fun a b => (a == b)%:R) in H.
have hd : headinv s n.-1 n.-1.
  by split=> i; rewrite ?orbb => h il; exfalso; move: il; rewrite -ltn_predRL ltnNge h.
have nn : (n.-1 < n)%N || (n.-1 == 0)%N by case: (n) => // m; rewrite /= ltnSn.
have ok : okst s by split.
have [[E [dE [zE lE]]] [[ul' pd'] q]] := loop_ok ok nn hd H.
have E1 : mx n (r_Z r) = E.
  rewrite zE; have -> : mx n (r_Z s) = 1%:M by apply/matrixP => a b; rewrite !mxE.
  by rewrite mul1mx.
rewrite /imx E1; split=> //; split=> //; split=> //; split=> //; split.
  move=> i j ij; have [_ sm] : ordered r j /\ small r j.
    by apply: q; case/andP: ij => ji il; exact: leq_ltn_trans ji il.
  exact: sm.
by move=> j jl; have [o _] := q j jl.
Qed.
End Red.
