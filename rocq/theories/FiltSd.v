(** Single-difference residuals and their covariance: proofs. *)
From Coq Require Import Lia.
From Verif Require Import AbGroup PppModel FiltModel FiltSpec FiltMatrix.
From mathcomp Require Import all_ssreflect all_algebra.
Set Implicit Arguments.
Unset Strict Implicit.
Unset Printing Implicit Defensive.
Import Order.POrderTheory GRing.Theory Num.Theory.
Local Open Scope ring_scope.

Lemma gnss_eqP : Equality.axiom gnss_eqb.
Proof. by case; case; constructor. Qed.
Canonical gnss_eqType := EqType gnss (EqMixin gnss_eqP).

(* ---------- ddcov ---------- *)
Section Cov.
Variable F : realFieldType.
Variables Ri Rj : seq F.
Definition wgt (a b : nat) : F := Ri`_a + (if a == b then Rj`_a else 0).
Lemma foldl_if (T A : Type) (G : T -> (nat -> nat -> A) -> nat -> nat -> A) (c : T -> bool) (w : A) a b s R :
  (forall i R, G i R a b = if c i then w else R a b) ->
  foldl (fun R i => G i R) R s a b = if has c s then w else R a b.
Proof.
  move=> H. elim: s R => //= i s IH R. rewrite IH H. by case: (c i); rewrite /= ?if_same.
Qed.
Lemma blk_ok k n R a b : dd_blk Ri Rj k n R a b =
  if ((k <= a < k + n) && (k <= b < k + n))%N then wgt a b else R a b.
Proof.
  rewrite /dd_blk.
  have -> : ((k <= a < k + n) && (k <= b < k + n))%N =
    has (fun i => has (fun j => (a == k + i)%N && (b == k + j)%N) (iota 0 n)) (iota 0 n).
  { apply/idP/idP.
    - case/andP=> /andP [A B] /andP [C D]. apply/hasP. exists (a - k)%N; first by rewrite mem_iota add0n ltn_subLR.
      apply/hasP. exists (b - k)%N; first by rewrite mem_iota add0n ltn_subLR. by rewrite !subnKC // !eqxx.
    - case/hasP=> i. rewrite mem_iota add0n => Hi /hasP [j]. rewrite mem_iota add0n => Hj /andP [/eqP -> /eqP ->].
      by rewrite !leq_addr !ltn_add2l Hi Hj. }
  apply: foldl_if => i {}R. apply: foldl_if => j {}R.
  rewrite /wgt. case: (i =P j) => [->|N].
  - rewrite /set2 !eqxx /=. case: (boolP (_ && _)) => [/andP [/eqP -> /eqP ->]|//]. by rewrite eqxx.
  - rewrite /set2. case: andP => [[/eqP Ea /eqP Eb]|//]. rewrite Ea Eb eqn_add2l.
    by case: eqP => // _; rewrite addr0.
Qed.
Fixpoint same (nb : seq nat) (k a b : nat) : bool :=
  if nb is n :: r then ((k <= a < k + n) && (k <= b < k + n))%N || same r (k + n) a b else false.
Lemma same_ge nb k a b : same nb k a b -> (k <= a)%N.
Proof.
  elim: nb k => //= n r IH k /orP [/andP [/andP [] //]|/IH H]. exact: leq_trans (leq_addr _ _) H.
Qed.
Lemma ddcov_fold nb k R a b :
  (foldl (fun kR n => ((kR.1 + n)%N, dd_blk Ri Rj kR.1 n kR.2)) (k, R) nb).2 a b =
  if same nb k a b then wgt a b else R a b.
Proof.
  elim: nb k R => //= n r IH k R. rewrite IH blk_ok. case: (same r (k + n) a b); rewrite ?orbT ?orbF //.
Qed.
Lemma ddcov_ok nb a b : ddcov nb Ri Rj a b = if same nb 0 a b then wgt a b else 0.
Proof. exact: ddcov_fold. Qed.
End Cov.
(** rows of one block have a common key, rows of different blocks different ones *)
Lemma same_key (T : Type) (K : eqType) (key : T -> K) (d : T) (B : seq (seq T)) (ks : seq K) k a b :
  size ks = size B -> uniq ks ->
  (forall q, (q < size B)%N -> all (fun t => key t == nth (head (key d) ks) ks q) (nth [::] B q)) ->
  same [seq size s | s <- B] k (k + a) (k + b) =
  [&& (a < size (flatten B))%N, (b < size (flatten B))%N & key (nth d (flatten B) a) == key (nth d (flatten B) b)].
Proof.
  elim: B ks k a b => [|s B IH] [|q ks] //= k a b [S] /andP [Nq Uq] H.
  have H0 : all (fun t => key t == q) s := H 0%N isT.
  have H1 : forall t, (t < size B)%N -> all (fun t0 => key t0 == nth (head (key d) ks) ks t) (nth [::] B t).
  { move=> t Ht. have := H t.+1 Ht. rewrite /=. congr (all _ _).
    have E : nth q ks t = nth (head (key d) ks) ks t by apply: set_nth_default; rewrite S.
    by rewrite E. }
  have key_s t : (t < size s)%N -> key (nth d s t) = q by move=> Ht; apply/eqP; move/(all_nthP d): H0 => /(_ _ Ht).
  have key_B t : (t < size (flatten B))%N -> key (nth d (flatten B) t) \in ks.
  { move: H1 S. clear. elim: B ks t => [|s B IH] [|q ks] // t H [S] //= Ht. rewrite nth_cat. case: ifP => L.
    - have := H 0%N isT. rewrite /= => /(all_nthP d) /(_ t L) /= /eqP ->. exact: mem_head.
    - rewrite inE. apply/orP; right. apply: IH => //.
      + move=> u Hu. have := H u.+1 Hu. rewrite /=. congr (all _ _).
        have E : nth q ks u = nth (head (key d) ks) ks u by apply: set_nth_default; rewrite S. by rewrite E.
      + move: Ht. by rewrite size_cat -{1}(subnKC (_ : size s <= t)%N) ?ltn_add2l // leqNgt L. }
  rewrite !leq_addr !ltn_add2l /= size_cat !nth_cat.
  case: (ltnP a (size s)) => La; case: (ltnP b (size s)) => Lb /=.
  - rewrite !key_s // eqxx. by rewrite !(ltn_addr _ La) !(ltn_addr _ Lb).
  - have [b' Eb] : exists b', b = (size s + b')%N by exists (b - size s)%N; rewrite subnKC.
    subst b. rewrite addnA addKn ltn_add2l.
    have -> : same [seq size s0 | s0 <- B] (k + size s) (k + a) (k + size s + b') = false.
    { apply/negP => /same_ge. by rewrite leq_add2l leqNgt La. }
    rewrite key_s //. symmetry. apply/negP => /and3P [_ L /eqP E].
    by move: (key_B _ L); rewrite -E (negbTE Nq).
  - have [a' Ea] : exists a', a = (size s + a')%N by exists (a - size s)%N; rewrite subnKC.
    subst a. rewrite addnA addKn ltn_add2l.
    have -> : same [seq size s0 | s0 <- B] (k + size s) (k + size s + a') (k + b) = false.
    { apply/negP => H2. have : same [seq size s0 | s0 <- B] (k + size s) (k + b) (k + size s + a').
      { move: H2. move: (k + size s)%N (k + size s + a')%N (k + b)%N. clear. move=> z u v. elim: B z => //= s B IH z /orP [|/IH ->]; last by rewrite orbT.
        by rewrite andbC => ->. }
      move/same_ge. by rewrite leq_add2l leqNgt Lb. }
    rewrite key_s //. symmetry. apply/negP => /and3P [L _ /eqP E].
    by move: (key_B _ L); rewrite E (negbTE Nq).
  - have [a' Ea] : exists a', a = (size s + a')%N by exists (a - size s)%N; rewrite subnKC.
    have [b' Eb] : exists b', b = (size s + b')%N by exists (b - size s)%N; rewrite subnKC.
    subst a b. by rewrite !addnA (IH ks) // !addKn !ltn_add2l.
Qed.

(* ---------- the labels of the rows ---------- *)
Definition lab := (gnss * nat * nat * nat)%type.
Section Labels.
Variable F : realFieldType.
Variable I : sdin F.
Let o := si_o I.
Let sat (i : nat) : Z := nth Z0 (si_sat I) i.
Definition rowof (x : Z -> F) (l : lab) := let '(m, f, i, j) := l in sd_row I x m f i j.
Definition brow (m : gnss) (f i : nat) (s : seq nat) : seq lab := [seq (m, f, i, j) | j <- s & ~~ skip I f i j].
Definition blab (m : gnss) (f : nat) : option (seq lab) :=
  match sysidx I m with
  | [::] => None
  | k :: r => Some (brow m f (argmax I k r) (k :: r))
  end.
Definition keys := [seq (m, f) | m <- si_sys I, f <- iota 0 (nf o * 2)].
Definition blabs : seq (seq lab) := pmap (fun mf => blab mf.1 mf.2) keys.
Definition labs := flatten blabs.
Lemma block_lab x m f : sd_block I x m f = omap (map (rowof x)) (blab m f).
Proof. rewrite /sd_block /blab. case: (sysidx I m) => // k r. by rewrite /omap /obind /oapp /brow -map_comp. Qed.
Lemma blocks_lab x : sd_blocks I x = [seq [seq rowof x l | l <- b] | b <- blabs].
Proof.
  rewrite /sd_blocks /blabs -/o -/keys. elim: keys => //= mf s IH. rewrite block_lab IH.
  by case: (blab _ _).
Qed.
Lemma rows_lab x : flatten (sd_blocks I x) = [seq rowof x l | l <- labs].
Proof. by rewrite blocks_lab /labs map_flatten. Qed.
Lemma idxP m k : (k \in sysidx I m) = (k < size (si_sat I))%N && (fst (sat2prn (sat k)) == m).
Proof. by rewrite mem_filter mem_iota add0n andbC. Qed.
Lemma argmax_ok b r : path ltn b r ->
  let a := argmax I b r in a \in b :: r /\
    (forall j, j \in b :: r -> si_el I j <= si_el I a /\ (si_el I j = si_el I a -> (a <= j)%N)).
Proof.
  rewrite /argmax. elim: r b => [|c r IH] b /=.
  { move=> _. split; first exact: mem_head. move=> j. by rewrite inE => /eqP ->. }
  move=> /andP [L Pc]. case: ifP => E.
  - case: (IH _ Pc) => A B. split; first by rewrite inE A orbT.
    move=> j. rewrite inE => /orP [/eqP ->|]; last exact: B.
    have [C D] := B c (mem_head _ _). have M := lt_le_trans E C. split; first exact: ltW.
    move=> Q. by move: M; rewrite Q ltxx.
  - have Pb : path ltn b r. { case: r Pc {IH} => //= d r /andP [L' ->]. by rewrite (ltn_trans L L'). }
    case: (IH _ Pb) => A B. split.
    { move: A. rewrite !inE => /orP [->|->]; by rewrite ?orbT. }
    move=> j. rewrite !inE => /or3P [/eqP ->|/eqP ->|H].
    + exact: B (mem_head _ _).
    + have [C D] := B b (mem_head _ _). have G : si_el I c <= si_el I b by rewrite Order.TotalTheory.leNgt E.
      split; first exact: le_trans G C. move=> Q. apply: leq_trans (ltnW L). apply: D.
      apply/eqP. by rewrite eq_le C -Q G.
    + by apply: B; rewrite inE H orbT.
Qed.
Lemma sys_sorted m : sorted ltn (sysidx I m).
Proof. apply: (sorted_filter ltn_trans). exact: iota_ltn_sorted. Qed.
Lemma ref_ok m k r : sysidx I m = k :: r -> reference I m (argmax I k r).
Proof.
  move=> E. have S := sys_sorted m. rewrite E in S. case: (argmax_ok S) => A B.
  rewrite -E idxP in A. case/andP: A => A1 /eqP A2. split=> //. split=> // j J1 J2. apply: B.
  by rewrite -E idxP J1 /=; apply/eqP.
Qed.
Lemma ref_unique m i i' : reference I m i -> reference I m i' -> i = i'.
Proof.
  move=> [A [B C]] [A' [B' C']]. case: (C _ A' B') => D E. case: (C' _ A B) => D' E'.
  have Q : si_el I i = si_el I i' by apply/eqP; rewrite eq_le D D'.
  apply/eqP. by rewrite eqn_leq (E (esym Q)) (E' Q).
Qed.
Lemma keysP m f : reflect (List.In m (si_sys I) /\ (f < nf o + nf o)%N) ((m, f) \in keys).
Proof.
  apply: (iffP allpairsP) => [[[m' f'] /= [A B [-> ->]]]|[A B]].
  - split; last by move: B; rewrite mem_iota add0n muln2 addnn.
    move: A. elim: (si_sys I) => //= a s IH. rewrite inE => /orP [/eqP ->|/IH]; by [left|right].
  - exists (m, f). split=> //=; last by rewrite mem_iota add0n muln2 -addnn.
    move: A. elim: (si_sys I) => //= a s IH [->|/IH]; rewrite inE ?eqxx // => ->. by rewrite orbT.
Qed.
Lemma labsP l : reflect (usable I l) (l \in labs).
Proof.
  apply: (iffP flattenP).
  - case=> b. rewrite mem_pmap => /mapP [[m f] /keysP [A B]]. rewrite /blab /=.
    case E: (sysidx I m) => [|k r] // [->]. have R := ref_ok E.
    move/mapP=> [j]. rewrite mem_filter -E idxP /skip !negb_or -!andbA.
    case/and5P=> /negbTE S1 S2 S3 S4 /andP [S5 /eqP S6] ->. split=> //. split=> //. split=> //. split=> //. split=> //.
    split; first by apply/eqP; rewrite eq_sym. split=> //. by split; apply/eqP.
  - case: l => [[[m f] i] j] [A [B [R [S5 [S6 [S4 [S1 [S2 S3]]]]]]]].
    have J : j \in sysidx I m by rewrite idxP S5; apply/eqP.
    case E: (sysidx I m) => [|k r]; first by rewrite E in J.
    have Ei := ref_unique R (ref_ok E).
    exists (brow m f i (k :: r)).
    + rewrite mem_pmap. apply/mapP. exists (m, f); first by apply/keysP. by rewrite /blab E /= -Ei.
    + apply/mapP. exists j => //. rewrite mem_filter -E J andbT /skip -/(sat j) S1 /=.
      rewrite !negb_or; apply/and3P; split; try exact/eqP. by rewrite eq_sym; apply/eqP.
Qed.
Definition key (l : lab) : gnss * nat := l.1.1.
Definition bkeys := [seq mf <- keys | blab mf.1 mf.2 != None :> option (seq lab)].
Lemma blab_key m f b : blab m f = Some b -> all (fun t => key t == (m, f)) b.
Proof.
  rewrite /blab. case: (sysidx I m) => // k r [<-]. apply/allP => t /mapP [j _ ->]. exact: eqxx.
Qed.
Lemma bkeys_ok q d : (q < size blabs)%N -> all (fun t => key t == nth d bkeys q) (nth [::] blabs q).
Proof.
  rewrite /blabs /bkeys. elim: keys q => // -[m f] s IH q /=.
  case E: (blab m f) => [b|] /=; last exact: IH.
  case: q => [|q] /=; last exact: IH. move=> _. exact: blab_key.
Qed.
Lemma bkeys_size : size bkeys = size blabs.
Proof. rewrite /blabs /bkeys. elim: keys => //= mf s IH. case: (blab _ _) => //= b. by rewrite IH. Qed.
Hypothesis uniq_sys : List.NoDup (si_sys I).
Lemma keys_uniq : uniq keys.
Proof.
  apply: allpairs_uniq; last by move=> [a b] [c d] _ _ /= [-> ->].
  - elim: uniq_sys => //= a s N _ ->. rewrite andbT. apply/negP => H. apply: N. move: H.
    elim: s => //= b s IH. rewrite inE => /orP [/eqP ->|/IH]; by [left|right].
  - exact: iota_uniq.
Qed.
Lemma bkeys_uniq : uniq bkeys. Proof. exact: filter_uniq keys_uniq. Qed.
Lemma labs_same d a b : same [seq size s | s <- blabs] 0 a b =
  [&& (a < size labs)%N, (b < size labs)%N & key (nth d labs a) == key (nth d labs b)].
Proof.
  rewrite -[X in same _ _ X]add0n -[X in same _ _ _ X]add0n.
  apply: (same_key (ks := bkeys)); [exact: bkeys_size|exact: bkeys_uniq|]. move=> q Q. exact: bkeys_ok.
Qed.
Lemma labs_uniq : uniq labs.
Proof.
  rewrite /labs /blabs. move: keys_uniq. elim: keys => //= -[m f] s IH /andP [N U].
  case E: (blab m f) => [b|] /=; last exact: IH.
  rewrite cat_uniq (IH U) andbT. apply/andP; split.
  - move: E. rewrite /blab. case E: (sysidx I m) => [|k r] // [<-].
    rewrite map_inj_uniq; last by move=> p q [].
    apply: filter_uniq. rewrite -E. apply: filter_uniq. exact: iota_uniq.
  - apply/hasPn => t /flattenP [c]. rewrite mem_pmap => /mapP [[m' f'] M] /= /esym /blab_key /allP H /H /eqP Kt.
    apply/negP => Tb. move/allP: (blab_key E) => /(_ _ Tb) /eqP. rewrite Kt => -[Em Ef].
    move: N. by rewrite -Em -Ef M.
Qed.
End Labels.

(* ---------- one row ---------- *)
Section Row.
Variable F : realFieldType.
Variable I : sdin F.
Let o := si_o I.
Let sat (i : nat) : Z := nth Z0 (si_sat I) i.
Implicit Types (h d x : Z -> F).
Lemma dot_setH k v h d : Z.le Z0 (wrapi I k) -> Z.lt (wrapi I k) (nx o) -> h (wrapi I k) = 0 ->
  rowdot o (setH I k v h) d = rowdot o h d + v * d (wrapi I k).
Proof.
  move=> A B C. rewrite /rowdot.
  have L : (Z.to_nat (wrapi I k) < Z.to_nat (nx o))%N by apply/ltP; lia.
  rewrite (bigD1 (Ordinal L)) //= [in RHS](bigD1 (Ordinal L)) //=.
  rewrite Z2Nat.id // {1}/setH Z.eqb_refl C mul0r add0r addrC. congr (_ + _).
  apply: eq_bigr => a N. congr (_ * _). rewrite /setH. case: Z.eqb_spec => // E. case/negP: N.
  apply/eqP/val_inj => /=. by rewrite -E Nat2Z.id.
Qed.
Lemma dot0 d : rowdot o (fun _ => 0) d = 0.
Proof. rewrite /rowdot big1 // => k _. by rewrite mul0r. Qed.
Lemma setH_other k v h z : z <> wrapi I k -> setH I k v h z = h z.
Proof. rewrite /setH. by case: Z.eqb_spec. Qed.
Lemma wrap_pos k : Z.le Z0 k -> wrapi I k = k.
Proof. rewrite /wrapi. case: Z.ltb_spec => // ? ?. exfalso; lia. Qed.

Variables (m : gnss) (f i j : nat).
Hypothesis Hf : (f < nf o + nf o)%N.
Hypothesis Hm : m <> GLO.
Hypothesis Hlay : trop_opt o = Zpos 1 -> iono_opt o = Zpos 1.
Hypothesis Hi : Z.le (Zpos 1) (sat i) /\ Z.le (sat i) (Zpos 233).
Hypothesis Hj : Z.le (Zpos 1) (sat j) /\ Z.le (sat j) (Zpos 233).
Hypothesis Hij : sat i <> sat j.
Lemma chan0 k : chan I m k = Z0.
Proof. rewrite /chan. by case: m Hm. Qed.
Lemma nf_pos : (0 < nf o)%N. Proof. by case: (nf o) Hf. Qed.
Lemma freq_ok k : freqof I m f k = sfreq I m f.
Proof.
  rewrite /freqof /sfreq chan0 -/o. case: ltnP => // L. congr (si_freq I m false _ _).
  rewrite -{1}(subnK L) modnDr modn_small //. by rewrite ltn_subLR.
Qed.
Lemma mu_ok : mu_of I m f j = (if (f < nf o)%N then -1 else 1) * (sfreq I m 0 / sfreq I m f) ^+ 2.
Proof.
  have E : freq0 I m = sfreq I m 0 by rewrite /sfreq -/o nf_pos.
  rewrite /mu_of -/o freq_ok E. by case: ifP; rewrite ?mulN1r ?mul1r.
Qed.
Lemma lam_ok k : (f < nf o)%N -> lam_of I m f k = si_c I / sfreq I m f.
Proof. move=> L. by rewrite /lam_of /sfreq -/o L chan0. Qed.
Lemma glo_no : gnss_eqb m GLO = false. Proof. by case: m Hm. Qed.
Lemma fz : (f < nf o)%N -> Z.le Z0 (Z.of_nat f) /\ Z.lt (Z.of_nat f) (Z.of_nat (nf o)).
Proof. move/ltP => L. lia. Qed.
Lemma na_eq : na o = Z.add (base o) (Z.add (if Z.eqb (trop_opt o) (Zpos 1) then Zpos 1 else Z0) (if Z.eqb (iono_opt o) (Zpos 1) then Zpos 233 else Z0)).
Proof. reflexivity. Qed.
Lemma base_eq : base o = Zpos 3 \/ base o = Zpos 6.
Proof. rewrite /base. case: ifP; by [left|right]. Qed.
Lemma Ms : MAXSAT = Zpos 233. Proof. reflexivity. Qed.
Lemma IT_eq : trop_opt o = Zpos 1 -> IT (na o) = at_trop o.
Proof. move=> T. rewrite /IT na_eq T (Hlay T) /at_trop Ms /=. lia. Qed.
Lemma II_eq s : iono_opt o = Zpos 1 -> II s (na o) = at_iono o s.
Proof. move=> T. rewrite /II na_eq T /at_iono Ms. case: (Z.eqb _ _) => /=; lia. Qed.
Lemma IB_eq s : IB s (Z.of_nat f) (na o) = at_amb o s f.
Proof. rewrite /IB na_eq /at_amb Ms. lia. Qed.
Lemma nx_eq : nx o = Z.add (na o) (Z.mul (Zpos 233) (Z.of_nat (nf o))). Proof. reflexivity. Qed.

Lemma St : Z.eqb (trop_opt o) (Zpos 1) -> wrapi I (IT (na o)) = at_trop o.
Proof. have B := base_eq. move=> /Z.eqb_eq T. rewrite -IT_eq //. apply: wrap_pos. rewrite IT_eq // /at_trop. lia. Qed.
Lemma Si s : Z.le (Zpos 1) s -> Z.eqb (iono_opt o) (Zpos 1) -> wrapi I (II s (na o)) = at_iono o s.
Proof. have B := base_eq. move=> S /Z.eqb_eq T. rewrite -II_eq //. apply: wrap_pos. rewrite II_eq // /at_iono. case: (Z.eqb _ _); lia. Qed.
Lemma Sb s : Z.le (Zpos 1) s -> wrapi I (IB s (Z.of_nat f) (na o)) = at_amb o s f.
Proof. have B := base_eq. move=> S. rewrite -IB_eq. apply: wrap_pos. rewrite IB_eq /at_amb. case: (Z.eqb _ _); case: (Z.eqb _ _); lia. Qed.
Lemma row_v x : let r := sd_row I x m f i j in
  r.1.1.1 = observed I (m, f, i, j) -
            predicted I (fun k => si_mapw I (x Z0) (x (Zpos 1)) (x (Zpos 2)) (si_el I k)) x (m, f, i, j).
Proof.
  have B := base_eq. have N := na_eq.
  rewrite /sd_row /observed /predicted /= /ntrop /niono -/o -/(sat i) -/(sat j) mu_ok.
  set g := (if (f < nf o)%N then -1 else 1) * _.
  have -> : (if si_dd I then si_y I i f - si_y I (i + size (si_sat I))%N f - (si_y I j f - si_y I (j + size (si_sat I))%N f)
     else si_y I i f - si_y I j f) =
     (if si_dd I then si_y I i f - si_y I (i + size (si_sat I))%N f else si_y I i f) -
     (if si_dd I then si_y I j f - si_y I (j + size (si_sat I))%N f else si_y I j f) by case: (si_dd I).
  set obs := _ - _.
  rewrite !Sb; try tauto.
  move: St Si.
  case: (Z.eqb (trop_opt o) (Zpos 1)) => [/(_ isT) ->|_]; case: (Z.eqb (iono_opt o) (Zpos 1)) => Si'; rewrite /= ?Si'; try tauto;
  case: (ltnP f (nf o)) => L; rewrite /= ?lam_ok // ?addr0 ?add0r ?mulrBl ?mulrBr; abgroup.
Qed.

Lemma row_h x d : let r := sd_row I x m f i j in
  rowdot o r.1.1.2 d = moved I d (m, f, i, j) +
            predicted I (fun k => si_mapw I (x Z0) (x (Zpos 1)) (x (Zpos 2)) (si_el I k)) d (m, f, i, j).
Proof.
  have B := base_eq. have N := na_eq. have X := nx_eq.
  have P0 : Z.le Z0 (if Z.eqb (trop_opt o) (Zpos 1) then Zpos 1 else Z0) by case: ifP.
  have P1 : Z.le Z0 (if Z.eqb (iono_opt o) (Zpos 1) then Zpos 233 else Z0) by case: ifP.
  rewrite /sd_row /moved /predicted /= /ntrop /niono -/o -/(sat i) -/(sat j) mu_ok glo_no.
  set g := (if (f < nf o)%N then -1 else 1) * _.
  set h0 := setH I (Zpos 2) _ _.
  have E0 : rowdot o h0 d = moved I d (m, f, i, j).
  { rewrite /h0 !dot_setH ?dot0; rewrite ?(setH_other, wrap_pos) //; try lia.
    rewrite /moved add0r !mulrDl !mulNr. abgroup. }
  have Z3 z : Z.le (Zpos 3) z -> h0 z = 0.
  { move=> Z. rewrite /h0 !setH_other // wrap_pos; lia. }
  rewrite -/(moved I d (m, f, i, j)) -E0. clearbody h0.
  have [Hi1 Hi2] := Hi. have [Hj1 Hj2] := Hj.
  have Bi := Sb Hi1. have Bj := Sb Hj1.
  have Ii := Si Hi1. have Ij := Si Hj1. have T := St. have LY := Hlay. have FZ := fz.
  rewrite /at_amb in Bi, Bj. rewrite /at_iono in Ii, Ij. rewrite /at_trop in T.
  rewrite /at_amb /at_iono /at_trop.
  move: P0 P1 N Bi Bj Ii Ij T LY.
  have ET := Z.eqb_spec (trop_opt o) (Zpos 1). have EI := Z.eqb_spec (iono_opt o) (Zpos 1).
  case: ET => ET; case: EI => EI P0 P1 N Bi Bj Ii Ij T LY; try (by case: EI; apply: LY);
  try move/(_ isT): Ii => Ii; try move/(_ isT): Ij => Ij; try move/(_ isT): T => T;
  case: (ltnP f (nf o)) FZ => L FZ; try (case: (FZ isT) => FZ1 FZ2);
  rewrite /= ?lam_ok //;
  rewrite ?dot_setH ?(Bi, Bj, Ii, Ij, T);
  rewrite ?setH_other ?(Bi, Bj, Ii, Ij, T); try lia.
  all: try (apply: Z3; lia).
  all: rewrite ?mulrBl ?mulrBr ?mulNr ?addr0 ?add0r; abgroup.
Qed.
End Row.

(* ---------- the blocks of ddcov ---------- *)
Lemma sameP nb k a b : reflect (exists p n q, nb = p ++ n :: q /\
    (k + sumn p <= a < k + sumn p + n)%N /\ (k + sumn p <= b < k + sumn p + n)%N) (same nb k a b).
Proof.
  elim: nb k => [|n r IH] k; first by right; case=> -[|? ?] [? [? []]].
  rewrite /=; apply: (iffP orP) => [[/andP [A B]|/IH [p [n' [q [-> [A B]]]]]]|[[|n' p] [m [q [E [A B]]]]]].
  - exists [::], n, r. by rewrite /= addn0 A B.
  - exists (n :: p), n', q. by rewrite /= addnA A B.
  - case: E A B => <- _. rewrite /= addn0 => -> ->. by left.
  - right. case: E A B => <- Er. rewrite /= addnA => A B. apply/IH. by exists p, m, q.
Qed.
Lemma same_blockP nb a b : reflect (same_block nb a b) (same nb 0 a b).
Proof. apply: (iffP (sameP nb 0 a b)) => -[p [n [q H]]]; exists p, n, q; by rewrite ?add0n in H *. Qed.
Lemma ddcov_entry (F : realFieldType) nb (Ri Rj : seq F) a b :
  (same_block nb a b -> ddcov nb Ri Rj a b = Ri`_a + (if a == b then Rj`_a else 0)) /\
  (~ same_block nb a b -> ddcov nb Ri Rj a b = 0).
Proof. rewrite ddcov_ok. by case: same_blockP. Qed.
Lemma same_blockC nb a b : same_block nb a b -> same_block nb b a.
Proof. by move=> [p [n [q [A [B C]]]]]; exists p, n, q. Qed.
Lemma ddcov_sym (F : realFieldType) nb (Ri Rj : seq F) :
  (forall a b, ddcov nb Ri Rj a b = ddcov nb Ri Rj b a) <-> (forall a b, same_block nb a b -> Ri`_a = Ri`_b).
Proof.
  split=> H a b.
  - move=> S. have := H a b. rewrite (proj1 (ddcov_entry nb Ri Rj a b) S) (proj1 (ddcov_entry nb Ri Rj b a) (same_blockC S)).
    rewrite eq_sym. by case: eqP => [->|_] //; rewrite !addr0.
  - rewrite !ddcov_ok. case: same_blockP => S; case: same_blockP => S'.
    + rewrite /wgt (H _ _ S) eq_sym. by case: eqP => [->|].
    + by case: S'; exact: same_blockC.
    + by case: S; exact: same_blockC.
    + by [].
Qed.

(* ---------- sdres ---------- *)
Section Quad.
Variable F : realFieldType.
Variables (n : nat) (K : eqType) (key : nat -> K) (g : K -> F) (t : nat -> F).
Hypothesis Hg : forall a, (a < n)%N -> 0 <= g (key a).
Hypothesis Ht : forall a, (a < n)%N -> 0 <= t a.
Definition blkm : 'M[F]_n := \matrix_(a, b) ((if key a == key b then g (key a) else 0) + (if a == b then t a else 0)).
Lemma blk_quad u : \sum_(a < n) \sum_(b < n) u (val a) * blkm a b * u (val b) =
  \sum_(k <- undup [seq key (val a) | a <- enum 'I_n]) g k * (\sum_(a < n | key (val a) == k) u (val a)) ^+ 2 +
  \sum_(a < n) t a * u (val a) ^+ 2.
Proof.
  transitivity (\sum_(a < n) (\sum_(b < n) (if key a == key b then g (key a) else 0) * (u (val a) * u (val b)) + t a * u (val a) ^+ 2)).
  { apply: eq_bigr => a _.
    have -> : t a * u (val a) ^+ 2 = \sum_(b < n) (if a == b then t a else 0) * (u (val a) * u (val b)).
    { rewrite (bigD1 a) //= eqxx big1 ?addr0 ?expr2 // => b N. by rewrite eq_sym (negbTE N) mul0r. }
    rewrite -big_split /=. apply: eq_bigr => b _. by rewrite mxE mulrAC mulrC mulrDl. }
  rewrite big_split /=. congr (_ + _).
  set ks := undup _. have U : uniq ks := undup_uniq _.
  transitivity (\sum_(a < n) \sum_(b < n) \sum_(k <- ks) (if (key a == k) && (key b == k) then g k * (u (val a) * u (val b)) else 0)).
  { apply: eq_bigr => a _. apply: eq_bigr => b _. 
    have A : key a \in ks by rewrite mem_undup; apply: map_f; rewrite mem_enum.
    rewrite (bigD1_seq (key a)) //= eqxx /= big1 ?addr0 => [|k N]; last by rewrite eq_sym (negbTE N).
    rewrite eq_sym. by case: eqP; rewrite ?mul0r. }
  transitivity (\sum_(a < n) \sum_(k <- ks) \sum_(b < n) (if (key a == k) && (key b == k) then g k * (u (val a) * u (val b)) else 0)).
  { apply: eq_bigr => a _. by rewrite exchange_big. }
  rewrite exchange_big /=. apply: eq_bigr => k _. rewrite expr2 big_distrlr /= mulr_sumr [RHS]big_mkcond /=.
  apply: eq_bigr => a _. case: eqP => _ /=; last by rewrite big1.
  rewrite mulr_sumr [RHS]big_mkcond /=. by [].
Qed.
Lemma blk_psd : psd blkm.
Proof.
  move=> u. rewrite blk_quad. apply: addr_ge0.
  - rewrite big_seq. apply: sumr_ge0 => k. rewrite mem_undup => /mapP [a _ ->]. apply: mulr_ge0; [exact: Hg (ltn_ord a)|exact: sqr_ge0].
  - apply: sumr_ge0 => a _. apply: mulr_ge0; [exact: Ht (ltn_ord a)|exact: sqr_ge0].
Qed.
Lemma blk_posdef : (forall a, (a < n)%N -> 0 < t a) -> posdef blkm.
Proof.
  move=> P. split; first exact: blk_psd. move=> u. rewrite blk_quad => /eqP.
  rewrite paddr_eq0; first last.
  { apply: sumr_ge0 => a _. apply: mulr_ge0; [exact: Ht (ltn_ord a)|exact: sqr_ge0]. }
  { rewrite big_seq. apply: sumr_ge0 => k. rewrite mem_undup => /mapP [a _ ->]. apply: mulr_ge0; [exact: Hg (ltn_ord a)|exact: sqr_ge0]. }
  case/andP=> _ E i L.
  have N (a : 'I_n) : true -> 0 <= t a * u (val a) ^+ 2 by move=> _; apply: mulr_ge0; [exact: Ht (ltn_ord a)|exact: sqr_ge0].
  have := psumr_eq0P N (eqP E) isT => /(_ (Ordinal L)) /eqP /=.
  by rewrite mulf_eq0 sqrf_eq0 (gt_eqF (P _ L)) => /eqP.
Qed.
End Quad.

Section Main.
Variable F : realFieldType.
Variable I : sdin F.
Let o := si_o I.
Let L := labs I.
Let d0 : lab := (GPS, 0%N, 0%N, 0%N).
Definition lvar_i (l : lab) : F := let '(m, f, i, j) := l in sigma2 I f (si_el I i).
Definition lvar_j (l : lab) : F := let '(m, f, i, j) := l in sigma2 I f (si_el I j).
Lemma varerr_ok f el : varerr I el f = sigma2 I f el.
Proof.
  rewrite /varerr /sigma2.
  have -> : Num.max (si_sin I el) (si_smin I) = if si_smin I <= si_sin I el then si_sin I el else si_smin I.
  { rewrite Order.TotalTheory.leNgt /Order.max. by case: (_ < _). }
  set s := if _ then _ else si_smin I. set q := if (_ <= f)%N then _ else _.
  have -> : (if (f < nf (si_o I))%N then 1 else si_eratio I (f - nf (si_o I)) ^+ 2) = q ^+ 2.
  { rewrite /q ltnNge. by case: (_ <= f)%N; rewrite ?expr1n. }
  by rewrite !exprMn exprVn mulrDr !mulrA.
Qed.
Lemma sigma_ge0 f el : 0 <= sigma2 I f el.
Proof.
  rewrite -varerr_ok /varerr. by rewrite addr_ge0 // sqr_ge0.
Qed.
Lemma sigma_gt0 f el : si_err1 I <> 0 -> ((f < nf o)%N \/ si_eratio I (f - nf o) <> 0) -> 0 < sigma2 I f el.
Proof.
  move=> E Q. rewrite -varerr_ok /varerr. apply: ltr_paddr; first exact: sqr_ge0.
  rewrite lt_def sqr_ge0 andbT sqrf_eq0 mulf_neq0 //; last exact/eqP.
  case: leqP => C; last exact: oner_neq0. case: Q => [|/eqP //]. by rewrite -/o ltnNge C.
Qed.
Lemma row_Ri x l : (rowof I x l).1.2 = lvar_i l.
Proof.
  case: l => [[[m f] i] j]. rewrite /rowof /sd_row /lvar_i. rewrite -varerr_ok.
  by case: (Z.ltb _ (ntrop _)); case: (Z.ltb _ (niono _)); case: (f < _)%N.
Qed.
Lemma row_Rj x l : (rowof I x l).2 = lvar_j l.
Proof.
  case: l => [[[m f] i] j]. rewrite /rowof /sd_row /lvar_j. rewrite -varerr_ok.
  by case: (Z.ltb _ (ntrop _)); case: (Z.ltb _ (niono _)); case: (f < _)%N.
Qed.
Hypothesis uniq_sys : List.NoDup (si_sys I).
Lemma sdres_R x a b : (a < size L)%N -> (b < size L)%N ->
  (sdres I x).2 a b = (if key (nth d0 L a) == key (nth d0 L b) then lvar_i (nth d0 L a) else 0) +
                      (if a == b then lvar_j (nth d0 L a) else 0).
Proof.
  move=> A B. rewrite /sdres /= ddcov_ok rows_lab blocks_lab -map_comp.
  rewrite (eq_map (f2 := size)); last by move=> z /=; rewrite size_map.
  rewrite (labs_same uniq_sys d0) -/L A B /= /wgt.
  rewrite -!map_comp !(nth_map d0) // /= row_Ri row_Rj.
  case: ifP => // E. case: eqP => [Q|]; last by rewrite addr0.
  by move: E; rewrite Q eqxx.
Qed.
Lemma key_var l l' : usable I l -> usable I l' -> key l = key l' -> lvar_i l = lvar_i l'.
Proof.
  move: l l' => [[[m f] i] j] [[[m' f'] i'] j'] [_ [_ [R _]]] [_ [_ [R' _]]] /= [Em Ef]. subst m' f'.
  by rewrite (ref_unique R R').
Qed.
Definition kvar (k : gnss * nat) : F := if [seq l <- L | key l == k] is l :: _ then lvar_i l else 0.
Lemma kvar_ok l : l \in L -> kvar (key l) = lvar_i l.
Proof.
  move=> H. rewrite /kvar. have : l \in [seq l0 <- L | key l0 == key l] by rewrite mem_filter eqxx.
  have : {subset [seq l0 <- L | key l0 == key l] <= L} by move=> z; rewrite mem_filter => /andP [].
  have : all (fun z => key z == key l) [seq l0 <- L | key l0 == key l] by exact: filter_all.
  case: [seq _ <- _ | _] => // z s /= /andP [/eqP E _] S _. apply: key_var; try exact/labsP.
  - apply/labsP. apply: S. exact: mem_head.
  - exact: E.
Qed.
Lemma sdres_mx x : (\matrix_(a < size L, b < size L) (sdres I x).2 a b) =
  blkm (size L) (fun a => key (nth d0 L a)) kvar (fun a => lvar_j (nth d0 L a)).
Proof.
  apply/matrixP => a b. rewrite !mxE sdres_R // kvar_ok //. exact: mem_nth.
Qed.
Lemma lvar_i0 l : 0 <= lvar_i l. Proof. case: l => [[[m f] i] j]. exact: sigma_ge0. Qed.
Lemma lvar_j0 l : 0 <= lvar_j l. Proof. case: l => [[[m f] i] j]. exact: sigma_ge0. Qed.
Lemma kvar0 k : 0 <= kvar k.
Proof. rewrite /kvar. case: [seq _ <- _ | _] => // l s. exact: lvar_i0. Qed.
Lemma sdres_sym x : symm (\matrix_(a < size L, b < size L) (sdres I x).2 a b).
Proof.
  move=> a b. rewrite sdres_mx !mxE. rewrite [key _ == _]eq_sym [a == b]eq_sym.
  congr (_ + _); [by case: eqP => [->|] | by case: eqP => [->|]].
Qed.
Lemma sdres_psd x : psd (\matrix_(a < size L, b < size L) (sdres I x).2 a b).
Proof. rewrite sdres_mx. apply: blk_psd => a _; [exact: kvar0|exact: lvar_j0]. Qed.
Lemma sdres_posdef x : si_err1 I <> 0 -> (forall k, (k < nf o)%N -> si_eratio I k <> 0) ->
  posdef (\matrix_(a < size L, b < size L) (sdres I x).2 a b).
Proof.
  move=> E1 E2. rewrite sdres_mx. apply: blk_posdef => a A; [exact: kvar0|exact: lvar_j0|].
  have := labsP I (nth d0 L a). rewrite mem_nth // => /elimT /(_ isT).
  case: (nth d0 L a) => [[[m f] i] j] [_ [Hf _]]. apply: sigma_gt0 => //.
  case: (ltnP f (nf o)) => Lf; [by left|right]. apply: E2. by rewrite ltn_subLR.
Qed.
End Main.

Lemma dot_delta (F : realFieldType) (o : popt) (h : Z -> F) k : Z.le Z0 k -> Z.lt k (nx o) ->
  rowdot o h (fun z => if Z.eqb z k then 1 else 0) = h k.
Proof.
  move=> A B. rewrite /rowdot. have L : (Z.to_nat k < Z.to_nat (nx o))%N by apply/ltP; lia.
  rewrite (bigD1 (Ordinal L)) //= big1 => [|a N]; first by rewrite Z2Nat.id // Z.eqb_refl mulr1 addr0.
  case: Z.eqb_spec => E; last by rewrite mulr0. case/negP: N. apply/eqP/val_inj => /=. by rewrite -E Nat2Z.id.
Qed.
Section Final.
Variable F : realFieldType.
Variable I : sdin F.
Let o := si_o I.
Let d0 : lab := (GPS, 0%N, 0%N, 0%N).
Lemma linP (T : eqType) (a : T) (l : seq T) : reflect (List.In a l) (a \in l).
Proof.
  elim: l => [|b l IH] /=; first by right. rewrite inE.
  apply: (iffP orP) => [[/eqP ->|/IH]|[->|/IH]]; by [left|right|rewrite eqxx; left|right].
Qed.
Lemma nodupP (T : eqType) (l : seq T) : uniq l -> List.NoDup l.
Proof. elim: l => [|a l IH] /=; first by constructor. case/andP=> N /IH H. constructor => //. by move/linP; apply/negP. Qed.
Lemma nth_row x k : (k < size (labs I))%N -> nth 0 (sdres I x).1.1 k = (rowof I x (nth d0 (labs I) k)).1.1.1 /\
  nth (fun _ => 0) (sdres I x).1.2 k = (rowof I x (nth d0 (labs I) k)).1.1.2.
Proof. move=> K. rewrite /sdres /= rows_lab -!map_comp. by rewrite !(nth_map d0). Qed.
Lemma sizes x : size (sdres I x).1.1 = size (labs I) /\ size (sdres I x).1.2 = size (labs I).
Proof. by rewrite /sdres /= rows_lab -!map_comp !size_map. Qed.
Lemma usable_at k : (k < size (labs I))%N -> usable I (nth d0 (labs I) k).
Proof. move=> K. apply/labsP. exact: mem_nth. Qed.
Hypothesis Ep : epoch I.
Lemma labs_rows : rows_of I (labs I).
Proof.
  case: Ep => U1 _. split; first exact: nodupP (labs_uniq U1). split; last exact: sizes.
  by move=> l; split=> [/linP/labsP //|H]; apply/linP/labsP.
Qed.
Lemma sat_in i : (i < size (si_sat I))%N -> Z.le (Zpos 1) (nth Z0 (si_sat I) i) /\ Z.le (nth Z0 (si_sat I) i) (Zpos 233).
Proof. case: Ep => _ [_ V] H. apply: V. elim: (si_sat I) i H => // a l IH [|i] /= H; [by left|right; exact: IH]. Qed.
Lemma sat_inj i j : (i < size (si_sat I))%N -> (j < size (si_sat I))%N -> nth Z0 (si_sat I) i = nth Z0 (si_sat I) j -> i = j.
Proof.
  case: Ep => _ [U _]. move: i j. elim: U => // a l N _ IH [|i] [|j] //= A B.
  - move=> E. case: N. rewrite E. clear - B. elim: l j B => // b l IH [|j] /= H; [by left|right; exact: IH].
  - move=> E. case: N. rewrite -E. clear - A. elim: l i A => // b l IH [|i] /= H; [by left|right; exact: IH].
  - by move/IH => ->.
Qed.
Lemma sd_rows : (trop_opt o = Zpos 1 -> iono_opt o = Zpos 1) ->
  forall k d0, (k < size (labs I))%N -> fst (fst (fst (nth d0 (labs I) k))) <> GLO ->
  let l := nth d0 (labs I) k in forall x d,
  let w i := si_mapw I (x Z0) (x (Zpos 1)) (x (Zpos 2)) (si_el I i) in
  nth 0 (sdres I x).1.1 k = observed I l - predicted I w x l /\
  rowdot o (nth (fun _ => 0) (sdres I x).1.2 k) d = moved I d l + predicted I w d l.
Proof.
  move=> Lay k d1 K. rewrite (set_nth_default d0) // => Hm l x d w. have [-> ->] := nth_row x K.
  have := usable_at K. rewrite /l. case: (nth d0 _ k) Hm => [[[m f] i] j] /= Hm [_ [Hf [[Hi _] [Hj [_ [N _]]]]]].
  have Hij : nth Z0 (si_sat I) i <> nth Z0 (si_sat I) j by move/(sat_inj Hi Hj) => E; apply: N.
  split; [exact: row_v Hf Hm Lay (sat_in Hi) (sat_in Hj) x|exact: row_h Hf Hm Lay (sat_in Hi) (sat_in Hj) Hij x d].
Qed.
Lemma sd_cov x : forall a b d0, (a < size (labs I))%N -> (b < size (labs I))%N ->
  let '(m, f, i, j) := nth d0 (labs I) a in let '(m', f', _, _) := nth d0 (labs I) b in
  (sdres I x).2 a b = (if gnss_eqb m m' && (f == f') then sigma2 I f (si_el I i) else 0) +
                      (if a == b then sigma2 I f (si_el I j) else 0).
Proof.
  move=> a b d1 A B. rewrite !(set_nth_default d0 d1) //. have := sdres_R (proj1 Ep) x A B.
  by case: (nth d0 _ a) => [[[m f] i] j]; case: (nth d0 _ b) => [[[m' f'] i'] j'].
Qed.
End Final.
