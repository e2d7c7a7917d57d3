(** Interpolation proofs. *)
From Verif Require Import PephModel PephProofs PephField TimeSpec.
From mathcomp Require Import all_ssreflect all_algebra.
Set Implicit Arguments.
Unset Strict Implicit.
Unset Printing Implicit Defensive.
Import GRing.Theory Num.Theory Order.POrderTheory.
Local Open Scope ring_scope.

Section Neville.
Variable F : fieldType.
Implicit Types (x y : seq F) (p : {poly F}).

Lemma nev_inner_nth x j n y k :
  (nev_inner x j n y)`_k =
  if (k < n - j)%N then (x`_(k + j) * y`_k - x`_k * y`_k.+1) / (x`_(k + j) - x`_k) else y`_k.
Proof.
  rewrite /nev_inner. move: (n - j)%N => m. elim: m k => [|m IH] k //.
  rewrite -addn1 iotaD foldl_cat /= add0n nth_set_nth /= addn1 ltnS.
  have [->|Hk] := eqVneq k m.
  - by rewrite leqnn !IH ltnn [(m.+1 < m)%N]ltnNge leqnSn.
  - by rewrite IH [(k <= m)%N]leq_eqVlt (negPf Hk).
Qed.

(** the interpolating polynomial through the points i .. i+j *)
Fixpoint nevp x y (j i : nat) : {poly F} :=
  match j with
  | O => (y`_i)%:P
  | S j' => (x`_(i + j) - x`_i)^-1 *:
            (((x`_(i + j))%:P - 'X) * nevp x y j' i - ((x`_i)%:P - 'X) * nevp x y j' i.+1)
  end.

Lemma size_nevp x y j i : (size (nevp x y j i) <= j.+1)%N.
Proof.
  elim: j i => [|j IH] i; first by rewrite /= size_polyC; case: (_ != _).
  have Hs : forall (c : F) p, (size p <= j.+1)%N -> (size ((c%:P - 'X) * p)%R <= j.+2)%N.
  { move=> c p Hp. apply: leq_trans (size_mul_leq _ _) _.
    have -> : size (c%:P - 'X) = 2%N by rewrite -size_opp opprB size_XsubC.
    by rewrite /= ltnS. }
  cbn [nevp]. apply: leq_trans (size_scale_leq _ _) _.
  apply: leq_trans (size_add _ _) _. rewrite geq_max size_opp !Hs //.
Qed.

Lemma nevp_interp x y n j i : uniq (take n x) -> size x = n -> (i + j < n)%N ->
  forall k, (i <= k <= i + j)%N -> (nevp x y j i).[x`_k] = y`_k.
Proof.
  move=> Hu Hs. rewrite -Hs take_size in Hu. elim: j i => [|j IH] i Hij k Hk.
  - have -> : k = i by apply/eqP; rewrite eqn_leq; case/andP: Hk; rewrite addn0 => -> ->.
    by rewrite /= hornerC.
  - cbn [nevp]. rewrite hornerZ hornerD hornerN !hornerM !hornerD !hornerN !hornerX !hornerC.
    case/andP: Hk => Hk1 Hk2.
    have Hne : x`_(i + j.+1) - x`_i != 0.
    { rewrite subr_eq0 nth_uniq ?Hs //; last by apply: leq_ltn_trans Hij; apply: leq_addr.
      by rewrite -{2}(addn0 i) eqn_add2l. }
    have [E1|H1] := eqVneq k i.
    + subst k. rewrite subrr mul0r subr0 IH //; last by rewrite leqnn leq_addr.
      * by rewrite mulrA mulVf // mul1r.
      * by apply: ltn_trans Hij; rewrite addnS.
    + have [E2|H2] := eqVneq k (i + j.+1)%N.
      * subst k. rewrite subrr mul0r sub0r IH.
        -- by rewrite -mulNr opprB mulrA mulVf // mul1r.
        -- by rewrite addSnnS.
        -- by rewrite addSnnS leqnn andbT -addSnnS leq_addr.
      * have Hi : (i < k)%N by rewrite ltn_neqAle eq_sym H1.
        have Hj : (k <= i + j)%N by rewrite -ltnS -addnS ltn_neqAle H2.
        rewrite !IH //; [ | by rewrite addSnnS | by rewrite Hi addSn ltnW // ltnS | by apply: ltn_trans Hij; rewrite addnS | by rewrite Hk1 Hj].
        by rewrite -mulrBl opprB addrA subrK mulrA mulVf // mul1r.
Qed.

Lemma interppol_nevp x y n : (0 < n)%N -> interppol x y n = (nevp x y n.-1 0).[0].
Proof.
  move=> Hn. rewrite /interppol.
  have G : forall m, (m < n)%N -> forall i, (i + m < n)%N ->
     (foldl (fun y j => nev_inner x j n y) y (iota 1 m))`_i = (nevp x y m i).[0].
  { elim=> [|m IH] Hm i Hi; first by rewrite /= hornerC.
    have -> : iota 1 m.+1 = iota 1 m ++ [:: m.+1] by rewrite -[m.+1]addn1 iotaD /= add1n addn1.
    rewrite foldl_cat /= nev_inner_nth.
    have -> : (i < n - m.+1)%N by rewrite ltn_subRL addnC.
    rewrite !IH ?(ltnW Hm) //; [ | by rewrite addSnnS | by apply: ltn_trans Hi; rewrite addnS].
    rewrite hornerZ hornerD hornerN !hornerM !hornerD !hornerN !hornerX !hornerC !subr0.
    by rewrite [RHS]mulrC. }
  apply: G; rewrite ?add0n; by case: n Hn.
Qed.

Lemma poly_unique x n (p q : {poly F}) : uniq x -> size x = n -> (size p <= n)%N -> (size q <= n)%N ->
  (forall k, (k < n)%N -> p.[x`_k] = q.[x`_k]) -> p = q.
Proof.
  move=> Hu Hs Hp Hq H. apply/eqP. rewrite -subr_eq0. apply/negPn/negP => Hne.
  have Hr : all (root (p - q)) x.
  { apply/(all_nthP 0) => k Hk. rewrite /root hornerD hornerN H ?subrr //. by rewrite -Hs. }
  have := max_poly_roots Hne Hr Hu. rewrite Hs.
  have : (size (p - q)%R <= n)%N by apply: leq_trans (size_add _ _) _; rewrite size_opp geq_max Hp Hq.
  by move=> H1 H2; have := leq_trans H2 H1; rewrite ltnn.
Qed.

Lemma interppol_ok x y n (p : {poly F}) : (0 < n)%N -> size x = n -> uniq x -> (size p <= n)%N ->
  (forall k, (k < n)%N -> p.[x`_k] = y`_k) -> interppol x y n = p.[0].
Proof.
  move=> Hn Hs Hu Hp H. rewrite interppol_nevp //. congr (_.[0]).
  apply: (poly_unique Hu Hs) => //.
  - apply: leq_trans (size_nevp _ _ _ _) _. by rewrite prednK.
  - move=> k Hk. rewrite H //. apply: (@nevp_interp x y n n.-1 0%N) => //; rewrite ?add0n.
    + by rewrite -Hs take_size.
    + by rewrite prednK.
    + by rewrite leq0n -ltnS prednK.
Qed.
Lemma interppol_exists x y n : (0 < n)%N -> size x = n -> uniq x ->
  exists p : {poly F}, (size p <= n)%N /\ (forall k, (k < n)%N -> p.[x`_k] = y`_k) /\
    (forall q : {poly F}, (size q <= n)%N -> (forall k, (k < n)%N -> q.[x`_k] = y`_k) -> q = p) /\
    interppol x y n = p.[0].
Proof.
  move=> Hn Hs Hu. exists (nevp x y n.-1 0).
  have H1 : (size (nevp x y n.-1 0) <= n)%N by apply: leq_trans (size_nevp _ _ _ _) _; rewrite prednK.
  have H2 : forall k, (k < n)%N -> (nevp x y n.-1 0).[x`_k] = y`_k.
  { move=> k Hk. apply: (@nevp_interp x y n n.-1 0%N) => //; rewrite ?add0n.
    - by rewrite -Hs take_size.
    - by rewrite prednK.
    - by rewrite leq0n -ltnS prednK. }
  split=> //. split=> //. split; last by rewrite interppol_nevp.
  move=> q Hq Hk. apply: (poly_unique Hu Hs) => // k Hk'. by rewrite Hk // H2.
Qed.
End Neville.

(* ---------- positions ---------- *)
Section Pos.
Variable F : numFieldType.
Variables (sn cs : F -> F) (omge : F).
Variable U : Z.
Hypothesis HU : Z.lt Z0 U.

Lemma ofZ_inj a b : ofZ F a = ofZ F b -> a = b.
Proof.
  have P0 : forall p, (0 : F) < (Pos.to_nat p)%:R by move=> p; rewrite ltr0n; apply/ssrnat.ltP; exact: Pos2Nat.is_pos.
  case: a b => [|p|p] [|q|q] //=.
  - by move=> E; have := P0 q; rewrite -E ltxx.
  - by move=> E; have := P0 q; rewrite -oppr_lt0 -E ltxx.
  - by move=> E; have := P0 p; rewrite E ltxx.
  - by move/eqP; rewrite eqr_nat => /eqP /Pos2Nat.inj ->.
  - move=> E; have := P0 p; rewrite E => H. have := P0 q. rewrite -oppr_lt0. by move/lt_gtF; rewrite H.
  - by move=> E; have := P0 p; rewrite -oppr_lt0 E ltxx.
  - move=> E; have := P0 q; rewrite -E => H. have := P0 p. rewrite -oppr_lt0. by move/lt_gtF; rewrite H.
  - by move/oppr_inj/eqP; rewrite eqr_nat => /eqP /Pos2Nat.inj ->.
Qed.
Lemma ofZ_U : ofZ F U != 0.
Proof. apply/eqP => E. have : U = Z0 by apply: ofZ_inj. by move: HU; case: U. Qed.
Lemma tsec_inj a b : tsec F U a = tsec F U b -> a = b.
Proof. move/(mulIf (invr_neq0 ofZ_U)). exact: ofZ_inj. Qed.

Lemma rot1 (c s X Y : F) : c * (c * X + s * Y) + - s * (- s * X + c * Y) = (c ^+ 2 + s ^+ 2) * X.
Proof. by rewrite !mulrDr !mulrA mulrNN addrACA mulNr [s * c]mulrC mulNr subrr addr0 -mulrDl -!expr2. Qed.
Lemma rot2 (c s X Y : F) : s * (c * X + s * Y) + c * (- s * X + c * Y) = (c ^+ 2 + s ^+ 2) * Y.
Proof.
  by rewrite !mulrDr !mulrA addrACA mulrN [c * s]mulrC mulNr subrr add0r -mulrDl -!expr2 addrC.
Qed.

Notation ticks := (TimeSpec.ticks U).
Definition t_at (tab : list (gtime * prow F)) (i : Z) : gtime := (List.nth (Z.to_nat i) tab (GT Z0 Z0, PR None None None None)).1.
Definition r_at (tab : list (gtime * prow F)) (i : Z) : prow F := (List.nth (Z.to_nat i) tab (GT Z0 Z0, PR None None None None)).2.
Definition len (tab : list (gtime * prow F)) : Z := Z.of_nat (length tab).
(** seconds from the requested time to epoch [i] *)
Definition dt_at tab time i : F := tsec F U (timediff U (t_at tab i) time).

Lemma pgets_ok (A : Type) (d : A) (l : list A) n i : Z.le Z0 i -> Z.le (Z.add i (Z.of_nat n)) (Z.of_nat (length l)) ->
  pgets l i n = Some [seq List.nth (Z.to_nat (Z.add i (Z.of_nat k))) l d | k <- iota 0 n].
Proof.
  elim: n i => [|n IH] i Hi Hn //. rewrite Nat2Z.inj_succ in Hn.
  cbn [pgets]. rewrite (@pget_nth _ l _ d); last by lia. cbn [bind].
  rewrite IH; [|lia|lia]. cbn [bind]. congr Some. cbn [iota map]. congr (_ :: _).
  - by rewrite Z.add_0_r.
  - rewrite -[1%N]add1n iotaDl -map_comp. apply: eq_map => k /=. congr (List.nth _ _ _). congr Z.to_nat. rewrite Zpos_P_of_succ_nat. lia.
Qed.

Lemma tk_map tab i : tk U [seq p.1 | p <- tab] i = ticks (t_at tab i).
Proof.
  rewrite /tk /t_at. congr (TimeSpec.ticks U _). move: (Z.to_nat i) => k.
  elim: tab k => [|p l IH] [|k] //=.
Qed.
Lemma length_map1 (tab : list (gtime * prow F)) : length [seq p.1 | p <- tab] = length tab.
Proof. by elim: tab => //= p l ->. Qed.

(** the orbit of the satellite in the inertial frame that coincides with the earth-fixed frame at
    the requested time; [th] is the angle the earth turns until the epoch *)
Definition earth_fixed (th : F) (X Y Z : F) (r : prow F) : Prop :=
  [/\ r_x r = Some (cs th * X + sn th * Y), r_y r = Some (- sn th * X + cs th * Y) & r_z r = Some Z].

Lemma pephpos_ok tab time :
  increasing U [seq p.1 | p <- tab] ->
  ~ no_cover U (Z.add NMAX (Zpos xH)) [seq p.1 | p <- tab] time ->
  exists index first,
    [/\ Z.le Z0 index /\ Z.lt (Z.add index 1) (len tab),
        (Z.lt (ticks (t_at tab index)) (ticks time) \/ index = Z0) /\
        (Z.le (ticks time) (ticks (t_at tab (Z.add index 1))) \/ Z.add index 2 = len tab),
        Z.le Z0 first /\ Z.lt (Z.add first NMAX) (len tab),
        Z.le first index /\ Z.le (Z.add index 1) (Z.add first NMAX) &
        (Z.le 5 index -> Z.lt (Z.add index 5) (len tab) -> first = Z.sub index 5)] /\
    ((exists k, (k <= 10)%N /\ zero_row (r_at tab (Z.add first (Z.of_nat k)))) -> pephpos sn cs omge U (len tab) tab time = Some None) /\
    ((forall k, (k <= 10)%N -> ~~ zero_row (r_at tab (Z.add first (Z.of_nat k)))) ->
     exists x y z, pephpos sn cs omge U (len tab) tab time = Some (Some (x, y, z,
        clk_between U time (t_at tab index, r_at tab index) (t_at tab (Z.add index 1), r_at tab (Z.add index 1)))) /\
     forall (PX PY PZ : {poly F}),
       (forall th, cs th ^+ 2 + sn th ^+ 2 = 1) ->
       (size PX <= 11)%N -> (size PY <= 11)%N -> (size PZ <= 11)%N ->
       (forall k, (k <= 10)%N -> let i := Z.add first (Z.of_nat k) in let t := dt_at tab time i in
          earth_fixed (omge * t) PX.[t] PY.[t] PZ.[t] (r_at tab i)) ->
       [/\ x = Some PX.[0], y = Some PY.[0] & z = Some PZ.[0]]).
Proof.
  move=> Hinc Hnc. set d := (GT Z0 Z0, PR None None None None) : gtime * prow F.
  case: (@pindex_ok U (Z.add NMAX (Zpos xH)) _ time _ Hinc) => [|[]|[_ [index [E [H1 [H2 [H3 H4]]]]]]] //.
  rewrite length_map1 -/(len tab) in E H2 H4. rewrite !tk_map in H3 H4.
  have Hlen : Z.le (Z.add NMAX 1) (len tab).
  { case: (Z.le_gt_cases (Z.add NMAX 1) (len tab)) => // H. case: Hnc. left. by rewrite length_map1. }
  have [F1 [F2 [F3 [F4 F5]]]] := pfirst_ok _ _ Hlen H1 H2.
  exists index, (pfirst (len tab) index). set f := pfirst (len tab) index in F1 F2 F3 F4 F5 *.
  have Ew : pgets tab f 11 = Some [seq List.nth (Z.to_nat (Z.add f (Z.of_nat k))) tab d | k <- iota 0 11].
  { apply: pgets_ok => //. move: F2. rewrite /len /NMAX. lia. }
  split; [by split|].
  rewrite /pephpos E. cbn [bind]. rewrite -/f Ew. cbn [bind].
  set w := [seq _ | k <- iota 0 11].
  have Hw : forall k, (k <= 10)%N -> nth d w k = List.nth (Z.to_nat (Z.add f (Z.of_nat k))) tab d.
  { move=> k Hk. rewrite /w (nth_map 0%N) ?size_iota // nth_iota //. }
  have Sw : size w = 11%N by rewrite /w size_map size_iota.
  split.
  - move=> [k [Hk Hz]]. have -> // : has (fun p : gtime * prow F => zero_row p.2) w.
    apply/(has_nthP d). exists k; first by rewrite Sw. by rewrite Hw.
  - move=> Hz. have -> : has (fun p : gtime * prow F => zero_row p.2) w = false.
    { apply/negbTE. rewrite -all_predC. apply/(all_nthP d) => k. rewrite Sw => Hk. rewrite /= Hw //. exact: Hz. }
    rewrite !(@pget_nth _ tab _ d) -?/(len tab); [|lia|lia]. cbn [bind].
    eexists _, _, _. split.
    { rewrite (surjective_pairing (List.nth (Z.to_nat index) tab d)) (surjective_pairing (List.nth (Z.to_nat (index + 1)) tab d)). reflexivity. }
    move=> PX PY PZ Hcs SX SY SZ Hk.
    set ts := [seq tsec F U (timediff U p.1 time) | p <- w].
    have St : size ts = 11%N by rewrite /ts size_map.
    have Ht : forall k, (k <= 10)%N -> ts`_k = dt_at tab time (Z.add f (Z.of_nat k)).
    { move=> k Hk'. rewrite /ts (nth_map d) ?Sw // Hw //. }
    have Hu : uniq ts.
    { apply/(uniqP 0) => i j. rewrite !inE St => Hi Hj. rewrite !Ht // /dt_at => /tsec_inj.
      rewrite !timediff_ticks -!tk_map => Ee.
      have Ez : forall a b, (a < b)%N -> (b < 11)%N -> Z.lt (tk U [seq p.1 | p <- tab] (Z.add f (Z.of_nat a))) (tk U [seq p.1 | p <- tab] (Z.add f (Z.of_nat b))).
      { move=> a b /ssrnat.ltP Hab /ssrnat.ltP Hb. apply: Hinc; rewrite ?length_map1; move: F2; rewrite /len /NMAX; lia. }
      case: (ltngtP i j) => // Hij; [have := Ez _ _ Hij Hj|have := Ez _ _ Hij Hi]; lia. }
    have Gen : forall (ys : seq (option F)) (P : {poly F}), (size P <= 11)%N -> size ys = 11%N ->
      (forall k, (k <= 10)%N -> nth None ys k = Some P.[ts`_k]) -> ointerp ts ys = Some P.[0].
    { move=> ys P HP Sy Hy. rewrite /ointerp.
      have -> : all isSome ys by apply/(all_nthP None) => k; rewrite Sy => Hk'; rewrite Hy.
      congr Some. rewrite Sy. apply: interppol_ok => // k Hk'. rewrite (nth_map None) ?Sy // Hy //. }
    split; apply: Gen; rewrite ?size_map ?Sw // => k Hk'; rewrite (nth_map d) ?Sw // Hw //.
    + case: (Hk k Hk') => Ex Ey _. rewrite -/(r_at tab _) -/(t_at tab _) -/(dt_at tab time _) Ex Ey /= Ht //.
      by rewrite rot1 Hcs mul1r.
    + case: (Hk k Hk') => Ex Ey _. rewrite -/(r_at tab _) -/(t_at tab _) -/(dt_at tab time _) Ex Ey /= Ht //.
      by rewrite rot2 Hcs mul1r.
    + case: (Hk k Hk') => _ _ Ez. by rewrite -/(r_at tab _) Ez Ht.
Qed.


(** clocks: linear between the epochs *)
Lemma clk_between_ok time (a b : gtime * prow F) :
  Z.lt (ticks a.1) (ticks b.1) ->
  (Z.le (ticks time) (ticks a.1) -> clk_between U time a b = r_c a.2) /\
  (Z.le (ticks b.1) (ticks time) -> clk_between U time a b = r_c b.2) /\
  (Z.lt (ticks a.1) (ticks time) -> Z.lt (ticks time) (ticks b.1) ->
   (forall A B : F, r_c a.2 = Some (A - B * tsec F U (timediff U time a.1)) ->
                    r_c b.2 = Some (A - B * tsec F U (timediff U time b.1)) -> clk_between U time a b = Some A) /\
   (r_c a.2 = None \/ r_c b.2 = None -> clk_between U time a b = None)).
Proof using HU.
  clear sn cs omge.
  move=> Hab. rewrite /clk_between !timediff_ticks.
  split; [|split].
  - move=> H. have -> // : Z.leb (Z.sub (ticks time) (ticks a.1)) Z0 = true by apply/Z.leb_le; lia.
  - move=> H. have -> : Z.leb (Z.sub (ticks time) (ticks a.1)) Z0 = false by apply/Z.leb_gt; lia.
    have -> // : Z.geb (Z.sub (ticks time) (ticks b.1)) Z0 = true by rewrite Z.geb_leb; apply/Z.leb_le; lia.
  - move=> H1 H2.
    have -> : Z.leb (Z.sub (ticks time) (ticks a.1)) Z0 = false by apply/Z.leb_gt; lia.
    have -> : Z.geb (Z.sub (ticks time) (ticks b.1)) Z0 = false by rewrite Z.geb_leb; apply/Z.leb_gt; lia.
    split.
    + move=> A B -> ->. congr Some. set u := tsec F U (Z.sub _ (ticks a.1)). set v := tsec F U _.
      have Hne : u - v != 0 by rewrite subr_eq0; apply/eqP => /tsec_inj; lia.
      have -> : (A - B * v) * u - (A - B * u) * v = A * (u - v).
      { by rewrite !mulrBl mulrBr opprB [B * v * u]mulrAC addrA subrK. }
      by rewrite -mulrA mulfV // mulr1.
    + by move=> [->|->] //; case: (r_c a.2).
Qed.

(** clock files *)
Definition ct_at (tab : list (gtime * option F)) (i : Z) : gtime := (List.nth (Z.to_nat i) tab (GT Z0 Z0, None)).1.
Definition cv_at (tab : list (gtime * option F)) (i : Z) : option F := (List.nth (Z.to_nat i) tab (GT Z0 Z0, None)).2.
Lemma is0_iff (a : option F) : is0 a <-> a = Some 0.
Proof. by case: a => [v|] //=; split=> [/eqP -> //|[->]]. Qed.
Lemma pephclk_ok (tab : list (gtime * option F)) time : increasing U [seq p.1 | p <- tab] ->
  (no_cover U 2 [seq p.1 | p <- tab] time -> pephclk U (Z.of_nat (length tab)) tab time = Some None) /\
  (~ no_cover U 2 [seq p.1 | p <- tab] time -> exists i,
    [/\ Z.le Z0 i /\ Z.lt (Z.add i 1) (Z.of_nat (length tab)),
       Z.lt (ticks (ct_at tab i)) (ticks time) \/ i = Z0 &
       Z.le (ticks time) (ticks (ct_at tab (Z.add i 1))) \/ Z.add i 2 = Z.of_nat (length tab)] /\
    let t0 := ct_at tab i in let t1 := ct_at tab (Z.add i 1) in
    let c0 := cv_at tab i in let c1 := cv_at tab (Z.add i 1) in
    let r := pephclk U (Z.of_nat (length tab)) tab time in
    [/\ Z.le (ticks time) (ticks t0) -> (c0 = Some 0 -> r = Some None) /\ (c0 <> Some 0 -> r = Some (Some c0)),
       Z.le (ticks t1) (ticks time) -> (c1 = Some 0 -> r = Some None) /\ (c1 <> Some 0 -> r = Some (Some c1)) &
       Z.lt (ticks t0) (ticks time) -> Z.lt (ticks time) (ticks t1) ->
         (c0 = Some 0 \/ c1 = Some 0 -> r = Some None) /\
         (c0 <> Some 0 -> c1 <> Some 0 ->
            (c0 = None \/ c1 = None -> r = Some (Some None)) /\
            (forall A B : F, c0 = Some (A - B * tsec F U (timediff U time t0)) ->
                             c1 = Some (A - B * tsec F U (timediff U time t1)) -> r = Some (Some (Some A))))]).
Proof using HU.
  clear sn cs omge.
  move=> Hinc. set d := (GT Z0 Z0, None) : gtime * option F.
  have Hlen : length [seq p.1 | p <- tab] = length tab by elim: (tab) => //= p l ->.
  have Htk : forall i, tk U [seq p.1 | p <- tab] i = ticks (ct_at tab i).
  { move=> i. rewrite /tk /ct_at. congr (TimeSpec.ticks U _). move: (Z.to_nat i) => k.
    elim: (tab) k => [|p l IH] [|k] //=. }
  case: (@pindex_ok U 2 _ time _ Hinc) => [|[Hn E]|[Hn [i [E [H1 [H2 [H3 H4]]]]]]] //; rewrite Hlen in E.
  { split=> // _. by rewrite /pephclk E. }
  rewrite Hlen in H2 H4. rewrite !Htk in H3 H4.
  split=> // _. exists i. split; first by split. cbv zeta.
  have Hlt : Z.lt (ticks (ct_at tab i)) (ticks (ct_at tab (Z.add i 1))).
  { rewrite -!Htk. apply: Hinc; rewrite ?Hlen; lia. }
  rewrite /pephclk E. cbn [bind]. rewrite !(@pget_nth _ tab _ d); [|lia|lia]. cbn [bind].
  rewrite -/(ct_at tab i) -/(ct_at tab (Z.add i 1)) -/(cv_at tab i) -/(cv_at tab (Z.add i 1)) !timediff_ticks.
  set t0 := ct_at tab i in Hlt *. set t1 := ct_at tab _ in Hlt *. set c0 := cv_at tab i. set c1 := cv_at tab _.
  split.
  - move=> H. have -> : Z.leb (Z.sub (ticks time) (ticks t0)) Z0 = true by apply/Z.leb_le; lia.
    case: ifP => [/is0_iff|/negP] Hz; split=> // Hc; case: Hz; by apply/is0_iff.
  - move=> H. have -> : Z.leb (Z.sub (ticks time) (ticks t0)) Z0 = false by apply/Z.leb_gt; lia.
    have -> : Z.geb (Z.sub (ticks time) (ticks t1)) Z0 = true by rewrite Z.geb_leb; apply/Z.leb_le; lia.
    case: ifP => [/is0_iff|/negP] Hz; split=> // Hc; case: Hz; by apply/is0_iff.
  - move=> Ha Hb.
    have -> : Z.leb (Z.sub (ticks time) (ticks t0)) Z0 = false by apply/Z.leb_gt; lia.
    have -> : Z.geb (Z.sub (ticks time) (ticks t1)) Z0 = false by rewrite Z.geb_leb; apply/Z.leb_gt; lia.
    split.
    + move=> Hc. have -> // : is0 c0 || is0 c1.
      by apply/orP; case: Hc => Hc; [left|right]; apply/is0_iff.
    + move=> N0 N1. have -> : is0 c0 || is0 c1 = false.
      { apply/negP => /orP [|] /is0_iff //. }
      split; first by move=> [->|->] //; case: (c0).
      move=> A B -> ->. congr (Some (Some (Some _))). set u := tsec F U (Z.sub _ (ticks t0)). set v := tsec F U _.
      have Hne : u - v != 0 by rewrite subr_eq0; apply/eqP => /tsec_inj; lia.
      have -> : (A - B * v) * u - (A - B * u) * v = A * (u - v).
      { by rewrite !mulrBl mulrBr opprB [B * v * u]mulrAC addrA subrK. }
      by rewrite -mulrA mulfV // mulr1.
Qed.

Lemma pephpos_defined tab time : increasing U [seq p.1 | p <- tab] ->
  (forall i, Z.le Z0 i -> Z.lt i (len tab) -> ~~ zero_row (r_at tab i)) ->
  (no_cover U (Z.add NMAX 1) [seq p.1 | p <- tab] time /\ pephpos sn cs omge U (len tab) tab time = Some None) \/
  exists r, pephpos sn cs omge U (len tab) tab time = Some (Some r).
Proof.
  move=> Hinc Hz.
  case: (@pindex_ok U (Z.add NMAX 1) [seq p.1 | p <- tab] time _ Hinc) => [|[Hn E]|[Hn _]] //.
  - left. split=> //. by rewrite length_map1 in E; rewrite /pephpos E.
  - right. have [index [first [[H1 H2 [H3 H4] H5 H6] [_ H]]]] := pephpos_ok Hinc Hn.
    case: H => [k Hk|x [y [z [-> _]]]]; last by eexists.
    apply: Hz; first lia. move: H4 Hk. rewrite /NMAX => H4 /leP. lia.
Qed.
Lemma peph2pos_ok tab time : increasing U [seq p.1 | p <- tab] ->
  (forall i, Z.le Z0 i -> Z.lt i (len tab) -> ~~ zero_row (r_at tab i)) ->
  ~ no_cover U (Z.add NMAX 1) [seq p.1 | p <- tab] (timeadd U time (Z.div U 1000)) ->
  peph2pos sn cs omge U (len tab) tab time <> None.
Proof.
  move=> Hinc Hz Hn. rewrite /peph2pos.
  case: (pephpos_defined time Hinc Hz) => [[_ ->] //|[[[[x y] z] c] ->]]. cbn [bind].
  case: (pephpos_defined (timeadd U time (Z.div U 1000)) Hinc Hz) => [[//]|[[[[x' y'] z'] c'] ->]].
  by cbn [bind].
Qed.
End Pos.
