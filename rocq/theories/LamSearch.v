(** The tree search: what both search functions maintain. *)
From Verif Require Import LamModel LamSpec FieldTac.
From mathcomp Require Import all_ssreflect all_algebra zify.
Require Import Field.
Set Implicit Arguments.
Unset Strict Implicit.
Unset Printing Implicit Defensive.
Import Order.TTheory GRing.Theory Num.Theory.
Local Open Scope ring_scope.

Section Search.
Variable F : realFieldType.
Variable rnd : F -> int.
Variables (n : nat) (L : mat F) (d ahat : vec F).
Hypothesis near : nearest rnd.
Hypothesis dpos : positive n d.
Hypothesis n0 : (0 < n)%N.
Add Field search_field : (f_theory F).
Notation vz := (vec int).

(* ---------- linear inequalities ---------- *)
Lemma le_by (A B X Y : F) : A <= B -> Y - X = B - A -> X <= Y.
Proof. by move=> h e; rewrite -subr_ge0 e subr_ge0. Qed.
Lemma le_by2 (A B C D X Y : F) : A <= B -> C <= D -> Y - X = (B - A) + (D - C) -> X <= Y.
Proof. by move=> h h' e; rewrite -subr_ge0 e addr_ge0 // subr_ge0. Qed.

(* ---------- residuals of an integer vector ---------- *)
Fixpoint resl (z : vz) (m : nat) : vec F :=
  match m with
  | 0 => fun _ => 0
  | m'.+1 => let r := resl z m' in let k := (n - m'.+1)%N in
             vset k (ahat k - (z k)%:~R - \sum_(k.+1 <= l < n) r l * L l k) r
  end.
Definition res (z : vz) : vec F := resl z n.
(** conditional estimate at level [k] *)
Definition cond (z : vz) (k : nat) : F := ahat k - \sum_(k.+1 <= l < n) res z l * L l k.

Lemma resl_stable z m m' k : (m <= m')%N -> (m' <= n)%N -> (n - m <= k)%N -> resl z m' k = resl z m k.
Proof.
move=> mm mn nk; move: mm mn; elim: m' => [|m' IH].
  by rewrite leqn0 => /eqP ->.
rewrite leq_eqVlt => /orP[/eqP -> //|]; rewrite ltnS => mm mn.
rewrite /= /vset; case: eqP => [kk|_]; last by apply: IH => //; exact: ltnW.
by exfalso; lia.
Qed.
Lemma res_eq z k : (k < n)%N -> res z k = cond z k - (z k)%:~R.
Proof.
move=> kn; have e : (n - (n - k.+1).+1)%N = k by lia.
rewrite /res (@resl_stable z (n - k.+1).+1) ?e; [|by lia..].
rewrite /= e /vset eqxx /cond addrAC; congr (_ - _); congr (_ - _).
apply: eq_big_nat => l lk; rewrite /res (@resl_stable z (n - k.+1) n) //; by lia.
Qed.
Lemma res_ext z z' k : (forall l, (k <= l < n)%N -> z l = z' l) ->
  forall l, (k <= l < n)%N -> res z l = res z' l.
Proof.
move=> H; suff S m : forall l, (k <= l < n)%N -> (n - l <= m)%N -> res z l = res z' l.
  by move=> l h; apply: (S (n - l)%N).
elim: m => [|m IH] l h hm; first by exfalso; lia.
rewrite !res_eq ?H //; [|by lia..]; rewrite /cond; congr (_ - _ - _).
by apply: eq_big_nat => i ii; rewrite IH //; lia.
Qed.
Lemma cond_ext z z' k : (forall l, (k < l < n)%N -> z l = z' l) -> cond z k = cond z' k.
Proof.
move=> H; rewrite /cond; congr (_ - _); apply: eq_big_nat => i ii.
by rewrite (@res_ext z z' k.+1).
Qed.

(** partial sums of the squared norm *)
Definition pd (z : vz) (k : nat) : F := \sum_(k <= l < n) res z l ^+ 2 / d l.
Definition qn (z : vz) : F := pd z 0.
Lemma pdS z k : (k < n)%N -> pd z k = pd z k.+1 + res z k ^+ 2 / d k.
Proof. by move=> kn; rewrite /pd big_ltn // addrC. Qed.
Lemma pd_ext z z' k : (forall l, (k <= l < n)%N -> z l = z' l) -> pd z k = pd z' k.
Proof. by move=> H; apply: eq_big_nat => l ll; rewrite (@res_ext z z' k). Qed.
Lemma term_ge0 z l : (l < n)%N -> 0 <= res z l ^+ 2 / d l.
Proof. by move=> ln; rewrite divr_ge0 ?sqr_ge0 // ltW // dpos. Qed.
Lemma pd_mono z k : (k <= n)%N -> pd z k <= qn z.
Proof.
move=> kn; rewrite /qn /pd (big_cat_nat _ _ _ (leq0n k) kn) /= ler_addr.
rewrite big_nat; apply: sumr_ge0 => l /andP[_ lk]; apply: term_ge0; exact: leq_trans lk kn.
Qed.

(* ---------- the zigzag ---------- *)
(** integers enumerated so far, the current one included *)
Definition seen (w s v : int) : bool := if 0 < s then (w <= v) && (v < w + s) else (w + s < v) && (v <= w).
Definition zig (a : F) (w s : int) : Prop :=
  s != 0 /\ (0 < s -> (s - 1)%:~R <= 2%:R * (a - w%:~R) <= s%:~R) /\
  (s < 0 -> (- s - 1)%:~R <= 2%:R * (w%:~R - a) <= (- s)%:~R).

Lemma zig_far a w s v : zig a w s -> v = w \/ ~~ seen w s v -> `|a - w%:~R| <= `|a - v%:~R|.
Proof.
move=> [s0 [P N]]; case=> [-> //|]; rewrite /seen; case: ifP => sp.
  have /andP[P1 P2] := P sp.
  have e0 : 0 <= a - w%:~R.
    have h : (0 : F) <= (s - 1)%:~R by rewrite ler0z subr_ge0 -gtz0_ge1.
    by move: (le_trans h P1); rewrite pmulr_rge0 // ltr0n.
  rewrite (ger0_norm e0) negb_and -!ltNge -!leNgt => /orP[vw|wv].
    have h : v%:~R <= w%:~R :> F by rewrite ler_int ltW.
    apply: le_trans (ler_norm _); by rewrite ler_add2l ler_opp2.
  have h : w%:~R + s%:~R <= v%:~R :> F by rewrite -intrD ler_int.
  rewrite distrC; apply: le_trans (ler_norm _).
  apply: (le_by2 P2 h); mcfix; ring.
have {}sp : s < 0 by rewrite lt_neqAle s0 /= leNgt sp.
have /andP[P1 P2] := N sp.
have e0 : 0 <= w%:~R - a.
  have h : (0 : F) <= (- s - 1)%:~R by rewrite ler0z subr_ge0 -gtz0_ge1 oppr_gt0.
  by move: (le_trans h P1); rewrite pmulr_rge0 // ltr0n.
rewrite distrC (ger0_norm e0) negb_and -!ltNge -!leNgt => /orP[vw|wv].
  have h : v%:~R <= w%:~R + s%:~R :> F by rewrite -intrD ler_int.
  apply: le_trans (ler_norm _).
  rewrite mulrNz in P2; apply: (le_by2 P2 h); mcfix; ring.
rewrite [X in _ <= X]distrC; apply: le_trans (ler_norm _); by rewrite ler_add2r ler_int ltW.
Qed.

Lemma seen_self a w s : zig a w s -> seen w s w.
Proof. by move=> [s0 _]; rewrite /seen; (do ?case: ifP => ?); lia. Qed.
Lemma zig_init a (w : int) : `|a - w%:~R| <= 2%:R^-1 -> zig a w (sgn1 (a - w%:~R)).
Proof.
rewrite /sgn1 => H; have two : 0 < 2%:R :> F by rewrite ltr0n.
have two' : 2%:R != 0 :> F by rewrite gt_eqF.
have H2 (x : F) : x <= 2%:R^-1 -> 2%:R * x <= 1.
  by move=> h; have := ler_wpmul2l (ltW two) h; rewrite mulfV.
case: ifP => neg; split=> //; split=> // _.
  apply/andP; split; first by rewrite opprK subrr mulr_ge0 // ltW // -opprB oppr_gt0.
  by rewrite opprK; apply: H2; rewrite -opprB (le_trans (ler_norm _)) // normrN.
apply/andP; split; first by rewrite subrr; apply: (mulr_ge0 (ltW two)); rewrite leNgt neg.
by apply: H2; rewrite (le_trans (ler_norm _)).
Qed.
Lemma zig_bump a w s : zig a w s -> zig a (w + s) (- s - Num.sg s).
Proof.
move=> [s0 [P N]]; split; [by lia|split=> h].
  have sp : s < 0 by lia.
  have /andP[P1 P2] := N sp; rewrite ltr0_sg // opprK.
  rewrite addrK !intrD !mulrNz in P1 P2 *; rewrite !mulr1z in P1 *.
  apply/andP; split; [apply: (le_by P2)|apply: (le_by P1)]; mcfix; ring.
have sp : 0 < s by lia.
have /andP[P1 P2] := P sp; rewrite gtr0_sg //.
rewrite opprB opprK !intrD !mulrNz in P1 P2 *; rewrite mulr1z in P1 *.
apply/andP; split; [apply: (le_by P2)|apply: (le_by P1)]; mcfix; ring.
Qed.
Lemma seen_bump a w s v : zig a w s ->
  seen (w + s) (- s - Num.sg s) v = seen w s v || (v == w + s).
Proof. by move=> [s0 _]; rewrite /seen; (do ?case: ifP => ?); lia. Qed.
Lemma seen_new a w s : zig a w s -> ~~ seen w s (w + s).
Proof. by move=> [s0 _]; rewrite /seen; (do ?case: ifP => ?); lia. Qed.

(* ---------- the part of the tree not yet visited ---------- *)
Definition agree (k : nat) (w z : vz) : Prop := forall l, (k <= l < n)%N -> z l = w l.
Lemma agree_dec k w z : agree k w z \/ ~ agree k w z.
Proof.
case: (boolP (all (fun l => z l == w l) (iota k (n - k)))) => [/allP p|/allPn[l hl hn]].
  by left=> l hl; apply/eqP; apply: p; rewrite mem_iota; lia.
right=> h; move/eqP: hn; apply; apply: h; move: hl; rewrite mem_iota; lia.
Qed.
Definition later (k : nat) (w s z : vz) : Prop :=
  exists l, (k <= l < n)%N /\ (forall m, (l < m < n)%N -> z m = w m) /\ ~~ seen (w l) (s l) (z l).
Definition remains k w s z := later k w s z \/ agree k w z.
Definition zigs k (w s : vz) := forall l, (k <= l < n)%N -> zig (cond w l) (w l) (s l).

Lemma later_lt k k' w s z : (k <= k')%N -> later k' w s z -> later k w s z.
Proof. by move=> kk [l [h [A S]]]; exists l; split=> //; lia. Qed.
Lemma later_agree k w s z : zigs k w s -> later k w s z -> agree k w z -> False.
Proof. by move=> Z [l [h [_ S]]] A; move/negP: S; apply; rewrite A //; apply: seen_self (Z l h). Qed.

Lemma vset_same (T : Type) i (x : T) v : vset i x v i = x.
Proof. by rewrite /vset eqxx. Qed.
Lemma vset_other (T : Type) i j (x : T) v : i <> j -> vset i x v j = v j.
Proof. by rewrite /vset; case: eqP => // -> []. Qed.

(** the two arrays after [bump] *)
Definition wb k (w s : vz) := (LamModel.bump k w s).1.
Definition sb k (w s : vz) := (LamModel.bump k w s).2.
Lemma wb_same k w s : wb k w s k = w k + s k. Proof. exact: vset_same. Qed.
Lemma wb_other k w s l : k <> l -> wb k w s l = w l. Proof. by move=> h; apply: vset_other. Qed.
Lemma sb_same k w s : sb k w s k = - s k - Num.sg (s k). Proof. exact: vset_same. Qed.
Lemma sb_other k w s l : k <> l -> sb k w s l = s l. Proof. by move=> h; apply: vset_other. Qed.
Lemma cond_wb k w s l : (k <= l)%N -> cond (wb k w s) l = cond w l.
Proof. by move=> kl; apply: cond_ext => m hm; rewrite wb_other //; lia. Qed.

Lemma bump_zigs k w s : zigs k w s -> zigs k (wb k w s) (sb k w s).
Proof.
move=> Z l hl; rewrite cond_wb ?wb_same; last by lia.
case: (k =P l) => [e|ne]; last by rewrite wb_other // sb_other //; apply: Z.
by subst l; rewrite wb_same sb_same; apply: zig_bump; apply: Z.
Qed.
Lemma bump_remains k w s z : (k < n)%N -> zigs k w s ->
  remains k (wb k w s) (sb k w s) z <-> later k w s z.
Proof.
move=> kn Z; have Zk := Z k; have {}Zk := Zk (introT andP (conj (leqnn k) kn)).
split=> [[[l [hl [A S]]]|A]|[l [hl [A S]]]].
- case: (k =P l) => [e|ne].
    subst l; exists k; split=> //; split=> [m hm|]; first by rewrite A // wb_other //; lia.
    by move: S; rewrite wb_same sb_same (seen_bump _ Zk) negb_or => /andP[].
  exists l; split=> //; split=> [m hm|]; first by rewrite A // wb_other //; lia.
  by rewrite wb_other // sb_other in S.
- exists k; split; first by rewrite leqnn.
  split=> [m hm|]; first by rewrite A ?wb_other //; lia.
  by rewrite A ?leqnn // wb_same; apply: seen_new Zk.
- case: (k =P l) => [e|ne].
    subst l; case: (z k =P w k + s k) => [e|ne].
      right=> m hm; case: (k =P m) => [<-|h]; first by rewrite wb_same.
      by rewrite wb_other // A //; lia.
    left; exists k; split=> //; split=> [m hm|]; first by rewrite A // wb_other //; lia.
    by rewrite wb_same sb_same (seen_bump _ Zk) negb_or S /=; apply/eqP.
  left; exists l; split=> //; split=> [m hm|]; first by rewrite A // wb_other //; lia.
  by rewrite wb_other // sb_other.
Qed.

(** going down to level [k] *)
Lemma down_zigs k w s w' s' : zigs k.+1 w s -> (forall l, (k < l < n)%N -> w' l = w l /\ s' l = s l) ->
  w' k = rnd (cond w k) -> s' k = sgn1 (cond w k - (w' k)%:~R) -> zigs k w' s'.
Proof.
move=> Z E e1 e2 l hl; case: (k =P l) => [e|ne].
  subst l; have -> : cond w' k = cond w k by apply: cond_ext => m hm; case: (E m hm).
  by rewrite e2; apply: zig_init; rewrite e1; apply: near.
have h : (k < l < n)%N by lia.
have [-> ->] := E l h.
have -> : cond w' l = cond w l by apply: cond_ext => m hm; case: (E m) => //; lia.
by apply: Z; lia.
Qed.
Lemma seen_init w x v : seen w (sgn1 (F:=F) x) v -> v = w.
Proof. rewrite /seen /sgn1; case: (x < 0); case: ifP; move=> ?; lia. Qed.
Lemma down_remains k w s w' s' z x : (k < n)%N -> (forall l, (k < l < n)%N -> w' l = w l /\ s' l = s l) ->
  s' k = sgn1 (F:=F) x ->
  remains k w' s' z <-> remains k.+1 w s z.
Proof.
move=> kn E e2; split=> [[[l [hl [A S]]]|A]|[[l [hl [A S]]]|A]].
- case: (k =P l) => [e|ne].
    subst l; right=> m hm; have [<- _] := E m ltac:(lia); by apply: A; lia.
  left; exists l; split; first by lia.
  split=> [m hm|]; first by rewrite A //; case: (E m) => //; lia.
  by have [<- <-] := E l ltac:(lia).
- right=> m hm; have [<- _] := E m ltac:(lia); by apply: A; lia.
- left; exists l; split; first by lia.
  split=> [m hm|]; first by rewrite A //; case: (E m) => //; lia.
  by have [-> ->] := E l ltac:(lia).
- have A' m : (k < m < n)%N -> z m = w' m by move=> h; rewrite A //; case: (E m h).
  case: (z k =P w' k) => [e|ne].
    by right=> m hm; case: (k =P m) => [<- //|h]; apply: A'; lia.
  left; exists k; split; first by lia.
  split=> //; rewrite e2; apply/negP => /seen_init; exact: ne.
Qed.

(** a level whose current value is already too far *)
Lemma far_later k w s z : (k < n)%N -> zigs k w s -> later k w s z ->
  later k.+1 w s z \/ pd w k <= qn z.
Proof.
move=> kn Z [l [hl [A S]]]; case: (k =P l) => [e|ne]; last first.
  by left; exists l; split=> //; lia.
subst l; right; apply: le_trans (pd_mono z (ltnW kn)).
rewrite (pdS z kn) (pdS w kn) (@pd_ext z w k.+1); last by move=> m hm; apply: A.
rewrite ler_add2l ler_pmul2r ?invr_gt0 ?dpos // !res_eq //.
rewrite -(@cond_ext z w k) //.
have Zk : zig (cond w k) (w k) (s k) by apply: Z; lia.
have := zig_far Zk (or_intror S); rewrite -(@cond_ext z w k) // => h.
by rewrite -[X in X <= _]real_normK ?num_real // -[X in _ <= X]real_normK ?num_real // ler_expn2r.
Qed.
Lemma far_agree k w z : (k < n)%N -> agree k w z -> pd w k <= qn z.
Proof. by move=> kn A; rewrite -(@pd_ext z w k) // pd_mono // ltnW. Qed.

(* ---------- the candidates ---------- *)
Section Cands.
Variables (nc : nat) (chi0 : F).
Hypothesis nc0 : (0 < nc)%N.
Definition filled (full : bool) (c : cand F) (i : nat) : bool := (i < nc)%N && (full || (i < c_cnt c)%N).
Definition kept full c z := exists i, filled full c i /\ agree 0 (c_a c i) z.
Record CI (full : bool) (c : cand F) : Prop := {
  ci_cnt : (c_cnt c <= nc.-1)%N; ci_max : (c_imax c < nc)%N;
  ci_part : ~~ full -> c_imax c = nc.-1 /\ c_chi c = chi0;
  ci_full : full -> c_cnt c = nc.-1 /\ c_chi c = c_s c (c_imax c) /\ forall i, (i < nc)%N -> c_s c i <= c_chi c;
  ci_val : forall i, filled full c i -> c_s c i = qn (c_a c i) /\ c_s c i < chi0;
  ci_dist : forall i j, filled full c i -> filled full c j -> agree 0 (c_a c i) (c_a c j) -> i = j }.

Lemma agree_sym k w z : agree k w z -> agree k z w.
Proof. by move=> A l hl; rewrite A. Qed.
Lemma agree_trans k w z y : agree k w z -> agree k z y -> agree k w y.
Proof. by move=> A B l hl; rewrite B // A. Qed.
Lemma qn_agree w z : agree 0 w z -> qn z = qn w.
Proof. by move=> A; apply: pd_ext. Qed.

Lemma argmaxP (s : vec F) : (argmax nc s < nc)%N /\ forall i, (i < nc)%N -> s i <= s (argmax nc s).
Proof.
rewrite /argmax; set f := fun b i => _.
have H : forall l b, (b < nc)%N -> all (fun i => (i < nc)%N) l ->
    (foldl f b l < nc)%N /\ s b <= s (foldl f b l) /\ forall i, i \in l -> s i <= s (foldl f b l).
  elim=> [|i l IH] b hb //= /andP[hi hl].
  have hf : (f b i < nc)%N by rewrite /f; case: ifP.
  have [A [B C]] := IH (f b i) hf hl.
  have [X Y] : s b <= s (f b i) /\ s i <= s (f b i).
    by rewrite /f; case: ltP => [h|h]; split=> //; apply: ltW.
  split=> //; split; first exact: le_trans X B.
  by move=> j; rewrite inE => /orP[/eqP -> |/C //]; exact: le_trans Y B.
have al : all (fun i => (i < nc)%N) (iota 0 nc) by apply/allP => i; rewrite mem_iota.
by have [A [B C]] := H _ _ nc0 al; split=> // i hi; apply: C; rewrite mem_iota.
Qed.

Lemma agree_refl k w : agree k w w. Proof. by []. Qed.
(** storing a vector that is not among the candidates and closer than the bound *)
Lemma store_CI full c w : CI full c -> qn w < c_chi c -> ~ kept full c w ->
  exists full', CI full' (store nc w (qn w) c) /\ kept full' (store nc w (qn w) c) w
  /\ c_chi (store nc w (qn w) c) <= c_chi c
  /\ (forall z, kept full' (store nc w (qn w) c) z -> kept full c z \/ agree 0 w z)
  /\ (forall z, kept full c z -> kept full' (store nc w (qn w) c) z \/ c_chi (store nc w (qn w) c) <= qn z)
  /\ (nc = 1%N -> c_chi (store nc w (qn w) c) = qn w).
Proof.
move=> I lt nk; rewrite /store; case: ifP => cl.
  (* a free place before the last *)
  have nf : full = false by apply/negbTE/negP => /(ci_full I)[e _]; move: cl; rewrite e ltnn.
  subst full; exists false; set c' := CA _ _ _ _ _.
  have cc : (c_cnt c < nc)%N by lia.
  have fl i : filled false c' i -> (i <> c_cnt c /\ filled false c i) \/ i = c_cnt c.
    by rewrite /filled /= => h; case: (i =P c_cnt c) => e; [right|left; split=> //; lia].
  have fl' i : filled false c i -> filled false c' i /\ i <> c_cnt c by rewrite /filled /=; lia.
  have [pm px] := ci_part I isT.
  have lt0 : qn w < chi0 by rewrite -px.
  split; first split=> //=.
  - exact: ci_max I.
  - move=> i /fl [[ne h]| ->]; last by rewrite !vset_same.
    rewrite !vset_other; [exact: ci_val I i h|by move=> ?; apply: ne..].
  - move=> i j /fl hi /fl hj.
    case: hi => [[ni fi]|ei]; case: hj => [[nj fj]|ej]; rewrite ?ei ?ej //.
    + rewrite !vset_other; [exact: ci_dist I i j fi fj|congruence..].
    + rewrite vset_same vset_other; last congruence; move=> A.
      by case: nk; exists i.
    + rewrite vset_same vset_other; last congruence; move=> A.
      by case: nk; exists j; split=> //; apply: agree_sym.
  split; first by exists (c_cnt c); rewrite /c' /= vset_same; split=> //; rewrite /filled /=; lia.
  split=> //; split.
    move=> z [i [/fl [[ne h]| ->]]] /=; last by rewrite vset_same => A; right.
    rewrite vset_other; last congruence; move=> A; by left; exists i.
  split; last by move=> e; move: cl; rewrite e.
  move=> z [i [h A]]; left; exists i; have [h1 h2] := fl' i h; split=> //=.
  by rewrite vset_other // => e; apply: h2.
(* the last place, or the farthest candidate *)
set s' := vset (c_imax c) (qn w) (c_s c).
have [am ax] := argmaxP s'.
have ec : c_cnt c = nc.-1 by have := ci_cnt I; lia.
have im := ci_max I.
exists true; set c' := CA _ _ _ _ _.
have fo i : (i < nc)%N -> i <> c_imax c -> filled full c i.
  move=> h ne; rewrite /filled h /=; case: (boolP full) => //= nf; have [e _] := ci_part I nf; lia.
have lt0 : qn w < chi0.
  case: (boolP full) => [f|nf]; last by have [_ <-] := ci_part I nf.
  have [_ [e _]] := ci_full I f; apply: (lt_trans lt); rewrite e.
  by case: (ci_val I (i := c_imax c)) => //; rewrite /filled im f.
have cle : c_chi c' <= c_chi c.
  rewrite /= /s' /vset; case: eqP => [_|ne]; first exact: ltW.
  case: (boolP full) => [f|nf]; first by have [_ [_ h]] := ci_full I f; exact: h.
  have [_ ->] := ci_part I nf; apply: ltW; by case: (ci_val I (fo _ am ne)).
split; first split=> //=.
- by rewrite ec.
- move=> i; rewrite /filled /= andbT => hi; case: (i =P c_imax c) => [-> |ne].
    by rewrite /s' !vset_same.
  rewrite /s' !vset_other; [exact: ci_val I i (fo i hi ne)|by move=> ?; apply: ne..].
- move=> i j; rewrite /filled /= !andbT => hi hj.
  case: (i =P c_imax c) => [-> |ni]; case: (j =P c_imax c) => [-> |nj] //.
  + rewrite vset_same vset_other; last congruence; move=> A.
    by case: nk; exists j; split; [apply: fo|apply: agree_sym].
  + rewrite vset_same vset_other; last congruence; move=> A.
    by case: nk; exists i; split=> //; apply: fo.
  + rewrite !vset_other; [exact: ci_dist I i j (fo i hi ni) (fo j hj nj)|congruence..].
split; first by exists (c_imax c); rewrite /c' /= vset_same; split=> //; rewrite /filled im.
split=> //; split.
  move=> z [i []]; rewrite /filled /= andbT => hi; case: (i =P c_imax c) => [-> |ne].
    by rewrite vset_same; right.
  rewrite vset_other; last congruence; move=> A; by left; exists i; split=> //; apply: fo.
split.
  move=> z [i [h A]]; case: (i =P c_imax c) => [e|ne]; last first.
    left; exists i; split; first by move: h; rewrite /filled => /andP[->].
    by rewrite /= vset_other // => e; apply: ne.
  right; have f : full.
    apply/negPn/negP => nf; have [e' _] := ci_part I nf; move: h; rewrite /filled (negbTE nf) e e' /=; lia.
  have [_ [e2 _]] := ci_full I f; rewrite (qn_agree A); have [<- _] := ci_val I h.
  by rewrite e -e2.
move=> e /=; have -> : argmax nc s' = 0%N by lia.
by rewrite /s' (_ : c_imax c = 0%N) ?vset_same //; lia.
Qed.

(** node [w] at level [k] to be looked at; or: everything below it done *)
Record Node (P : nat -> vz -> vz -> vz -> Prop) full c k w s : Prop := {
  nd_c : CI full c;
  nd_zig : zigs k w s;
  nd_all : forall z, P k w s z \/ kept full c z \/ c_chi c <= qn z;
  nd_new : forall z, kept full c z -> ~ P k w s z }.
Definition Visit := Node remains.
Definition Done := Node later.

Lemma visit_bump full c k w s : (k < n)%N -> Done full c k w s -> Visit full c k (wb k w s) (sb k w s).
Proof.
move=> kn [C Z A N]; split=> //; first exact: bump_zigs.
- by move=> z; case: (A z) => h; [left; apply/bump_remains|right].
- by move=> z h /(bump_remains _ kn Z); exact: N h.
Qed.
Lemma visit_down full c k w s w' s' : (k < n)%N -> Visit full c k.+1 w s ->
  (forall l, (k < l < n)%N -> w' l = w l /\ s' l = s l) ->
  w' k = rnd (cond w k) -> s' k = sgn1 (cond w k - (w' k)%:~R) -> Visit full c k w' s'.
Proof.
move=> kn [C Z A N] E e1 e2; have D := fun z => @down_remains k w s w' s' z _ kn E e2.
split=> //; first exact: down_zigs Z E e1 e2.
- by move=> z; case: (A z) => h; [left; apply/D|right].
- by move=> z h /D; exact: N h.
Qed.
Lemma visit_far full c k w s : (k < n)%N -> Visit full c k w s -> c_chi c <= pd w k -> Done full c k w s.
Proof.
move=> kn [C Z A N] le; split=> //.
- move=> z; case: (A z) => [[h|h]|h]; [by left| |by right].
  by right; right; apply: le_trans le (far_agree kn h).
- by move=> z h l; apply: (N z h); left.
Qed.
Lemma done_up full c k w s : (k < n)%N -> Done full c k w s -> c_chi c <= pd w k -> Done full c k.+1 w s.
Proof.
move=> kn [C Z A N] le; split=> //.
- by move=> l hl; apply: Z; lia.
- move=> z; case: (A z) => [/(far_later kn Z) [h|h]|h]; [by left| |by right].
  by right; right; apply: le_trans le h.
- by move=> z h l; apply: (N z h); apply: later_lt l.
Qed.
Lemma visit_store full c w s : Visit full c 0 w s -> qn w < c_chi c ->
  exists full', Done full' (store nc w (qn w) c) 0 w s
    /\ (nc = 1%N -> c_chi (store nc w (qn w) c) = qn w).
Proof.
move=> [C Z A N] lt.
have nk : ~ kept full c w by move=> h; apply: (N w h); right.
have [f [C' [kw [le [old [new one]]]]]] := store_CI C lt nk.
exists f; split=> //; split=> //.
- move=> z; case: (A z) => [[h|h]|[/new h|h]]; [by left|right; left| |].
  + by have [i [hi hA]] := kw; exists i; split=> //; apply: agree_trans hA h.
  + by case: h => h; right; [left|right].
  + by right; right; apply: le_trans le h.
- move=> z /old [h|h] l; first by apply: (N z h); left.
  exact: later_agree Z l h.
Qed.
Lemma visit_init c w s : c = cand0 chi0 nc -> w n.-1 = rnd (ahat n.-1) ->
  s n.-1 = sgn1 (ahat n.-1 - (w n.-1)%:~R) -> Visit false c n.-1 w s.
Proof.
move=> -> e1 e2; have cn : cond w n.-1 = ahat n.-1.
  by rewrite /cond prednK // big_geq // subr0.
have nok z : ~ kept false (cand0 chi0 nc) z by move=> [i []]; rewrite /filled /=; lia.
split=> //.
- split=> //=; [by lia|by move=> i; rewrite /filled /=; lia|by move=> i j; rewrite /filled /=; lia].
- move=> l hl; have -> : l = n.-1 by lia.
  by rewrite cn e2; apply: zig_init; rewrite e1; apply: near.
- move=> z; left; case: (z n.-1 =P w n.-1) => [e|ne].
    by right=> l hl; have -> : l = n.-1 by lia.
  left; exists n.-1; split; first by lia.
  by split=> [m hm|]; [lia|rewrite e2; apply/negP => /seen_init].
- by move=> z h; case: (nok z h).
Qed.
Lemma done_top full c w s : Done full c n w s -> CI full c /\ forall z, kept full c z \/ c_chi c <= qn z.
Proof.
move=> [C Z A N]; split=> // z; case: (A z) => // -[l [h _]]; lia.
Qed.

(** enough close vectors fill all places *)
Lemma all_filled full c (f : nat -> vz) : CI full c -> (forall z, kept full c z \/ c_chi c <= qn z) ->
  (forall i, (i < nc)%N -> qn (f i) < chi0) ->
  (forall i j, (i < nc)%N -> (j < nc)%N -> agree 0 (f i) (f j) -> i = j) -> full.
Proof.
move=> C A fl fd; apply/negPn/negP => nf; have [_ e] := ci_part C nf.
have K i : (i < nc)%N -> kept full c (f i).
  by move=> h; case: (A (f i)) => //; rewrite e leNgt fl.
pose eqv (x y : vz) := all (fun l => y l == x l) (iota 0 n).
have eqvP x y : eqv x y <-> agree 0 x y.
  by split=> [/allP h l hl|h]; [apply/eqP; apply: h; rewrite mem_iota; lia
    |apply/allP => l; rewrite mem_iota => hl; apply/eqP; apply: h; lia].
pose g i := find (fun j => eqv (c_a c j) (f i)) (iota 0 (c_cnt c)).
have gP i : (i < nc)%N -> (g i < c_cnt c)%N /\ agree 0 (c_a c (g i)) (f i).
  move=> h; have [j []] := K i h; rewrite /filled (negbTE nf) /= => /andP[_ hj] hA.
  have hs : has (fun j => eqv (c_a c j) (f i)) (iota 0 (c_cnt c)).
    by apply/hasP; exists j; [rewrite mem_iota|apply/eqvP].
  have lt : (g i < c_cnt c)%N by move: hs; rewrite has_find size_iota.
  by split=> //; have := nth_find 0%N hs; rewrite nth_iota // => /eqvP.
have H : {in iota 0 nc &, injective g}.
  move=> i j; rewrite !mem_iota /= => hi hj eg.
  apply: fd => //; apply: agree_trans (gP j hj).2; rewrite -eg; apply: agree_sym (gP i hi).2.
have U : uniq (map g (iota 0 nc)) by rewrite map_inj_in_uniq ?iota_uniq.
have S : {subset map g (iota 0 nc) <= iota 0 (c_cnt c)}.
  by move=> x /mapP[i]; rewrite mem_iota => hi ->; rewrite mem_iota; case: (gP i hi).
have := uniq_leq_size U S; rewrite size_map !size_iota; have := ci_cnt C; lia.
Qed.


(* ---------- the list returned ---------- *)
Hypothesis ul : unit_lower n L.
Definition vof (z : 'cV[int]_n) : vz := fun i => if insub i is Some j then z j 0 else 0.
Lemma vofE z (i : 'I_n) : vof z i = z i 0.
Proof. by rewrite /vof valK. Qed.
Lemma cv_vof z : cv n (vof z) = z.
Proof. by apply/colP => i; rewrite mxE vofE. Qed.
Lemma cv_agree w z : agree 0 w z <-> cv n z = cv n w.
Proof.
split=> [A|/colP E l hl]; first by apply/colP => i; rewrite !mxE A //=.
by have := E (Ordinal (proj2 (andP hl))); rewrite !mxE.
Qed.
Lemma sqdist_qn (z : vz) : sqdist (ldl n L d) (cv n ahat) (cv n z) = qn z.
Proof.
have [L1 Lz] := ul.
set r : 'cV[F]_n := cv n (res z).
have e : map_mx intr (cv n z) - cv n ahat = - ((mx n L)^T *m r).
  apply/colP => k; rewrite !mxE /= -[LHS]opprB; congr (- _).
  have kn := ltn_ord k.
  transitivity (\sum_(0 <= l < n) L l k * res z l); last first.
    by rewrite big_mkord; apply: eq_bigr => l _; rewrite !mxE.
  rewrite (big_cat_nat _ _ _ (leq0n k) (ltnW kn)) /= big_nat big1 ?add0r; last first.
    by move=> l hl; rewrite Lz ?mul0r //; lia.
  rewrite big_ltn // L1 // mul1r res_eq // /cond.
  rewrite (eq_big_nat _ _ (F2 := fun l => L l k * res z l)); last by move=> l _; rewrite mulrC.
  set S := \sum_(_ <= _ < _) _; mcfix; ring.
have UL : mx n L \in unitmx.
  rewrite unitmxE det_trig; last by apply/is_trig_mxP => i j ij; rewrite mxE Lz //; have := ltn_ord j; lia.
  by rewrite big1 ?unitr1 // => i _; rewrite mxE L1.
have UD : diag_mx (\row_(i < n) d i) \in unitmx.
  rewrite unitmxE det_diag unitfE; apply/prodf_neq0 => i _; rewrite mxE gt_eqF // dpos //.
have UQ : ldl n L d \in unitmx by rewrite /ldl !unitmx_mul unitmx_tr UL UD.
set y : 'cV[F]_n := \col_i (res z i / d i).
have eQ : (mx n L)^T *m r = ldl n L d *m (invmx (mx n L) *m y).
  rewrite /ldl -!mulmxA (mulKVmx UL); congr (_ *m _); apply/colP => i.
  by rewrite mul_diag_mx !mxE mulrC divfK // gt_eqF // dpos.
have neg (x : 'cV[F]_n) M : (- x)^T *m M *m (- x) = x^T *m M *m x.
  by rewrite mulmxN (raddfN (trmx_additive _ _ _)) /= !mulNmx opprK.
rewrite /sqdist e neg {2}eQ mulmxA (mulmxKV UQ).
rewrite trmx_mul trmxK mulmxA (mulmxK UL) mxE /qn /pd big_mkord; apply: eq_bigr => i _.
by rewrite !mxE mulrA -expr2.
Qed.

(** sorting *)
Section Sort.
Variable T : Type.
Fixpoint ins (x : T * F) (l : seq (T * F)) : seq (T * F) :=
  match l with [::] => [:: x] | y :: r => if x.2 <= y.2 then x :: l else y :: ins x r end.
Lemma ins_sorted x l : sorted <=%R (map snd l) -> sorted <=%R (map snd (ins x l)).
Proof.
elim: l => [|y l IH] //= p; case: ifP => h /=; first by rewrite h.
have yx : y.2 <= x.2 by apply: ltW; rewrite ltNge h.
have := IH (path_sorted p); case: l p {IH} => [|u l] /=; first by rewrite yx.
by move=> /andP[yu pu]; case: ifP => _ /= ->; rewrite ?yx ?yu.
Qed.
End Sort.
Lemma ins_map x l : map (fun zs : vz * F => (cv n zs.1, zs.2)) (LamModel.insert x l)
  = ins (cv n x.1, x.2) (map (fun zs : vz * F => (cv n zs.1, zs.2)) l).
Proof. by elim: l => [|y l IH] //=; case: ifP => //= _; rewrite IH. Qed.
Lemma ins_perm (x : 'cV[int]_n * F) l : perm_eq (ins x l) (x :: l).
Proof.
elim: l => [|y l IH] //=; case: ifP => // _.
apply: (@perm_trans _ [:: y, x & l]); first by rewrite perm_cons.
by rewrite -[[:: y, x & l]]/([:: y] ++ [:: x] ++ l) perm_catCA.
Qed.
Definition asv (R : seq (vz * F)) : seq ('cV[int]_n * F) := [seq (cv n zs.1, zs.2) | zs <- R].

Theorem results_closest full c : CI full c -> (forall z, kept full c z \/ c_chi c <= qn z) ->
  (exists l : seq 'cV[int]_n, uniq l /\ size l = nc /\ all (fun z => sqdist (ldl n L d) (cv n ahat) z < chi0) l) ->
  closest_integers (ldl n L d) (cv n ahat) nc (asv (results nc c)).
Proof.
move=> C A [l [lu [ls la]]].
have f : full.
  apply: (@all_filled full c (fun i => vof (nth 0 l i))) => //.
    by move=> i hi; rewrite -sqdist_qn cv_vof; apply: (allP la); apply: mem_nth; rewrite ls.
  move=> i j hi hj /cv_agree; rewrite !cv_vof => /eqP; rewrite nth_uniq ?ls // => /eqP //.
pose rows := [seq (cv n (c_a c i), c_s c i) | i <- iota 0 nc].
have E : asv (results nc c) = foldr (@ins _) [::] rows.
  rewrite /asv /results /rows; elim: (iota 0 nc) => [|i r IH] //=.
  by rewrite ins_map IH.
have P : perm_eq (asv (results nc c)) rows.
  rewrite E; elim: (rows) => [|x r IH] //=.
  by apply: perm_trans (ins_perm _ _) _; rewrite perm_cons.
have ff i : (i < nc)%N -> filled full c i by rewrite /filled f => ->.
have inr zs : zs \in asv (results nc c) -> exists2 i, (i < nc)%N & zs = (cv n (c_a c i), c_s c i).
  by rewrite (perm_mem P) => /mapP[i]; rewrite mem_iota => hi ->; exists i.
split; first by rewrite (perm_size P) size_map size_iota.
split.
  rewrite (perm_uniq (perm_map fst P)) /rows -map_comp map_inj_in_uniq ?iota_uniq //.
  move=> i j; rewrite !mem_iota /= => hi hj e.
  by apply: (ci_dist C) => //; try exact: ff; apply/cv_agree.
split.
  by rewrite E; elim: (rows) => [|x r IH] //=; apply: ins_sorted.
split.
  by move=> zs /inr [i hi ->] /=; rewrite sqdist_qn; case: (ci_val C (ff i hi)).
move=> z nz zs /inr [i hi ->] /=; have [_ [ec hc]] := ci_full C f.
apply: le_trans (hc i hi) _; rewrite -(cv_vof z) sqdist_qn.
case: (A (vof z)) => // -[j [hj Aj]]; case/negP: nz.
rewrite (perm_mem (perm_map fst P)) /rows -map_comp; apply/mapP; exists j.
  by rewrite mem_iota; move: hj; rewrite /filled => /andP[].
by move/cv_agree: Aj; rewrite cv_vof.
Qed.
(** the running sums *)
Definition sums (z : vec int) (l b : nat) : F := - \sum_(l.+1 <= m < n) res z m * L m b.
Lemma sums_cond z l : ahat l + sums z l l = cond z l.
Proof. by []. Qed.
Lemma sums_step z l b : (l.+1 < n)%N -> sums z l b = sums z l.+1 b - res z l.+1 * L l.+1 b.
Proof. by move=> h; rewrite /sums big_ltn // opprD addrC. Qed.
Lemma sums_top z b : sums z n.-1 b = 0.
Proof. by rewrite /sums prednK // big_geq // oppr0. Qed.
Lemma sums_ext z z' l b : (forall m, (l < m < n)%N -> z m = z' m) -> sums z l b = sums z' l b.
Proof.
move=> H; rewrite /sums; congr (- _); apply: eq_big_nat => m hm; congr (_ * _).
by apply: (@res_ext z z' l.+1) => // i hi; apply: H; lia.
Qed.

(* ---------- msearch ---------- *)
Record Minv (s : mst F) : Prop := {
  mi_k : (m_k s < n)%N;
  mi_v : exists full, Visit full (m_c s) (m_k s) (m_z s) (m_st s);
  mi_ac : forall l, (m_k s <= l < n)%N -> m_ac s l = cond (m_z s) l;
  mi_dist : forall l, (m_k s <= l < n)%N -> m_dist s l = pd (m_z s) l.+1;
  mi_S : forall l b, (m_k s <= l < n)%N -> (b <= l)%N -> m_S s l b = sums (m_z s) l b;
  mi_left : m_left s = m_ac s (m_k s) - (m_z s (m_k s))%:~R }.

Lemma m_initP : Minv (m_init rnd chi0 n nc ahat).
Proof.
have pn : (n.-1 < n)%N by lia.
have e z : cond z n.-1 = ahat n.-1 by rewrite -sums_cond sums_top addr0.
split=> //=.
- exists false; apply: visit_init => //; rewrite ?vset_same //.
- by move=> l hl; rewrite (_ : l = n.-1) ?vset_same ?e //; lia.
- by move=> l hl; rewrite (_ : l = n.-1);[rewrite /pd prednK // big_geq|lia].
- by move=> l b hl _; rewrite (_ : l = n.-1) ?sums_top //; lia.
Qed.

Lemma m_stepP s : Minv s ->
  match m_step rnd n nc L d ahat s with
  | Some s' => Minv s'
  | None => exists full w st, Done full (m_c s) n w st
  end.
Proof.
case: s => dist ac z st S left k c [/= kn [full V] Ac Di Ss Le].
have kk : (k <= k < n)%N by rewrite leqnn.
have lr : left = res z k by rewrite Le Ac // res_eq.
have nd : dist k + left ^+ 2 / d k = pd z k by rewrite Di // lr -pdS.
rewrite /m_step /= nd; case: ltP => lt.
  case: k kn V Ac Di Ss Le kk lr nd lt => [|k] kn V Ac Di Ss Le kk lr nd lt /=.
    have [f [D _]] := visit_store V lt.
    split=> //=.
    + by exists f; apply: (visit_bump _ D).
    + by move=> l hl; rewrite Ac // (cond_wb (k := 0)).
    + move=> l hl; rewrite Di //; symmetry; apply: pd_ext => m hm; apply: (@wb_other 0); lia.
    + move=> l b hl hb; rewrite Ss //; symmetry; apply: sums_ext => m hm; apply: (@wb_other 0); lia.
  set z' := vset k _ z.
  have E m : (k < m)%N -> z' m = z m by move=> h; rewrite /z' vset_other //; lia.
  have Sk b : (b <= k)%N -> S k.+1 b + ((z k.+1)%:~R - ac k.+1) * L k.+1 b = sums z k b.
    move=> hb; rewrite Ss //; last by lia.
    rewrite (sums_step z b kn) -lr Le; mcfix; ring.
  have Sz l b : (k <= l)%N -> sums z' l b = sums z l b by move=> h; apply: sums_ext => m hm; apply: E; lia.
  have eac : ahat k + (S k.+1 k + ((z k.+1)%:~R - ac k.+1) * L k.+1 k) = cond z k by rewrite Sk // sums_cond.
  have cz l : (k <= l)%N -> cond z' l = cond z l by move=> h; rewrite -!sums_cond Sz.
  move: (erefl z'); rewrite {1}/z' eqxx leqnn /= vset_same eac => ez.
  split=> //=.
  - by lia.
  - exists full; apply: (visit_down (k := k)) V _ _ _ => //; first by lia.
    + by move=> l hl; rewrite E ?vset_other //; lia.
    + by rewrite -ez vset_same.
    + by rewrite !vset_same -ez vset_same.
  - move=> l hl; case: (k =P l) => [<-|ne]; first by rewrite vset_same cz.
    rewrite vset_other // Ac ?cz //; lia.
  - move=> l hl; case: (k =P l) => [<-|ne].
      by rewrite vset_same; apply: pd_ext => m hm; rewrite E //; lia.
    rewrite vset_other // Di; last by lia.
    by apply: pd_ext => m hm; rewrite E //; lia.
  - move=> l b hl hb; case: eqP => [e|ne] /=; first by subst l; rewrite hb Sz // Sk.
    rewrite Ss ?Sz //; lia.
  - by rewrite vset_same.
case: eqP => [ek|nk].
  exists full, z, st; have h := visit_far kn V lt; have := done_up kn h lt.
  by have -> : k.+1 = n by lia.
have kn' : (k.+1 < n)%N by lia.
have D := done_up kn (visit_far kn V lt) lt.
split=> //=.
- by exists full; apply: (visit_bump _ D).
- move=> l hl; rewrite Ac ?(cond_wb (k := k.+1)) //; lia.
- move=> l hl; rewrite Di; last by lia.
  symmetry; apply: pd_ext => m hm; apply: (@wb_other k.+1); lia.
- move=> l b hl hb; rewrite Ss //; last by lia.
  symmetry; apply: sums_ext => m hm; apply: (@wb_other k.+1); lia.
Qed.
Lemma done_closest full c w st R : Done full c n w st -> R = results nc c ->
  (exists l : seq 'cV[int]_n, uniq l /\ size l = nc /\ all (fun z => sqdist (ldl n L d) (cv n ahat) z < chi0) l) ->
  closest_integers (ldl n L d) (cv n ahat) nc (asv R).
Proof. by move=> D -> E; have [C A] := done_top D; apply: results_closest C A E. Qed.

Lemma m_loopP fuel s c : Minv s -> m_loop rnd fuel n nc L d ahat s = Some c ->
  exists full w st, Done full c n w st.
Proof.
elim: fuel s => [|fuel IH] s I //=; have := m_stepP I.
by case: m_step => [s' I'|D [<-] //]; apply: IH.
Qed.
Theorem msearch_closest fuel R : msearch rnd fuel chi0 n nc L d ahat = Some R ->
  (exists l : seq 'cV[int]_n, uniq l /\ size l = nc /\ all (fun z => sqdist (ldl n L d) (cv n ahat) z < chi0) l) ->
  closest_integers (ldl n L d) (cv n ahat) nc (asv R).
Proof.
rewrite /msearch; case e : m_loop => [c|] //= [<-].
by have [full [w [st D]]] := m_loopP m_initP e; apply: done_closest D _.
Qed.

(* ---------- estimILS ---------- *)
(** [low] says which rows of the columns below the current level are valid *)
Record Ecom (s : est F) : Prop := {
  ei_k : (e_k s < n)%N;
  ei_ac : forall l, (e_k s <= l < n)%N -> e_ac s l = cond (e_z s) l;
  ei_dist : forall l, (e_k s <= l < n)%N -> e_dist s l = pd (e_z s) l.+1;
  ei_left : forall l, (e_k s <= l < n)%N -> e_left s l = res (e_z s) l;
  ei_path : forall c, (c.+1 < n)%N -> (c < e_path s c < n)%N;
  ei_col : forall c l, (e_k s <= c <= l)%N -> (l < n)%N -> e_S s l c = sums (e_z s) l c }.
Record Einv (s : est F) : Prop := {
  ei_com : Ecom s;
  ei_v : exists full, Visit full (e_c s) (e_k s) (e_z s) (e_st s);
  ei_low : forall c l, (c < e_k s)%N -> (e_path s c <= l < n)%N -> e_S s l c = sums (e_z s) l c;
  ei_mono : forall a b, (a <= b < e_k s)%N -> (e_path s b <= e_path s a)%N }.
Record Uinv (il : nat) (s : est F) : Prop := {
  ui_com : Ecom s;
  ui_v : exists full, Visit full (e_c s) (e_k s) (e_z s) (e_st s);
  ui_il : (il <= e_k s)%N;
  ui_low : forall c l, (c < il)%N -> (e_path s c <= l < n)%N -> (e_k s <= l)%N -> e_S s l c = sums (e_z s) l c;
  ui_mid : forall c l, (il <= c < e_k s)%N -> (e_k s <= l < n)%N -> e_S s l c = sums (e_z s) l c;
  ui_mono : forall a b, (a <= b < il)%N -> (e_path s b <= e_path s a)%N }.

Lemma e_newP s : Ecom s -> e_new d s = pd (e_z s) (e_k s).
Proof.
move=> I; have k := ei_k I; have kk : (e_k s <= e_k s < n)%N by rewrite leqnn.
by rewrite /e_new (ei_dist I kk) (ei_left I kk) -pdS.
Qed.

Lemma e_colsP z left k p S : (k <= p < n)%N -> S p k = sums z p k ->
  (forall j, (k < j < n)%N -> left j = res z j) ->
  (forall a, (k <= a <= p)%N -> e_cols L left k p S a k = sums z a k) /\
  (forall a b, b <> k \/ (p <= a)%N -> e_cols L left k p S a b = S a b).
Proof.
move=> kp Sp Le; rewrite /e_cols.
have [m em] : exists m, p = (k + m)%N by exists (p - k)%N; lia.
subst p; rewrite addKn; have {}kp : (k + m < n)%N by lia.
elim: m S Sp kp => [|m IH] S Sp kp.
  by split=> // a ha; rewrite (_ : a = k) ?addn0 in Sp *; [|lia].
rewrite (_ : rev (iota k.+1 m.+1) = (k + m.+1)%N :: rev (iota k.+1 m)); last by rewrite -[in LHS](addn1 m) iotaD rev_cat /= addSn addnS.
set f := (X in foldl X) in IH *.
pose S' := fun a b => if (a == (k + m.+1).-1)%N && (b == k) then S (k + m.+1)%N k - left (k + m.+1)%N * L (k + m.+1)%N k else S a b.
have ef a b : foldl f S ((k + m.+1)%N :: rev (iota k.+1 m)) a b = foldl f S' (rev (iota k.+1 m)) a b by [].
have Sp' : S' (k + m)%N k = sums z (k + m) k.
  rewrite /S' addnS /= !eqxx /= -addnS Sp Le; last by lia.
  by rewrite addnS -(@sums_step z (k + m) k) //; lia.
have [|A B] := IH S' Sp'; first by lia.
split=> [a ha|a b h]; rewrite ef.
  case: (a =P (k + m.+1)%N) => [-> |ne]; last by apply: A; lia.
  rewrite B; last by right; lia.
  rewrite /S' (_ : _ == _ = false); [exact: Sp|apply/eqP; lia].
rewrite B; last by case: h => h; [left|right; lia].
by rewrite /S'; case: h => h; [rewrite andbC; case: eqP|rewrite (_ : _ == _ = false) //; apply/eqP; lia].
Qed.

Lemma e_initP : Einv (e_init rnd chi0 n nc ahat).
Proof.
have pn : (n.-1 < n)%N by lia.
have e z : cond z n.-1 = ahat n.-1 by rewrite -sums_cond sums_top addr0.
have H l : (n.-1 <= l < n)%N -> l = n.-1 by lia.
split=> /=; [split=> //=|exists false; apply: visit_init => //; rewrite ?vset_same //|by move=> c l hc hl; rewrite (H l) ?sums_top //; lia|by []].
- by move=> l /H ->; rewrite vset_same e.
- by move=> l /H ->; rewrite /pd prednK // big_geq.
- by move=> l /H ->; rewrite res_eq // !vset_same e.
- by move=> c; lia.
- by move=> c l hc hl; rewrite (H l) ?sums_top //; lia.
Qed.

(** one step to the next integer of level [k] *)
Lemma e_nextP full k s : (k < n)%N -> (e_k s <= k)%N -> Done full (e_c s) k (e_z s) (e_st s) ->
  Ecom s -> Ecom (e_next k s) /\ (exists full, Visit full (e_c (e_next k s)) k (e_z (e_next k s)) (e_st (e_next k s)))
    /\ forall l c, (k <= l)%N -> sums (e_z (e_next k s)) l c = sums (e_z s) l c.
Proof.
move=> kn ks D I.
have sm l c : (k <= l)%N -> sums (wb k (e_z s) (e_st s)) l c = sums (e_z s) l c.
  by move=> h; apply: sums_ext => m hm; apply: wb_other; lia.
split; last split; last by move=> l c h; rewrite -sm.
  split=> //=; rewrite -?/(wb k (e_z s) (e_st s)).
  - move=> l hl; rewrite (ei_ac I) ?cond_wb //; lia.
  - move=> l hl; rewrite (ei_dist I); last by lia.
    by symmetry; apply: pd_ext => m hm; apply: wb_other; lia.
  - move=> l hl; have hl' : (l < n)%N by lia.
    rewrite res_eq // cond_wb; last by lia.
    case: (k =P l) => [e|ne].
      by subst l; rewrite vset_same (ei_ac I) //; lia.
    rewrite vset_other // (ei_left I); last by lia.
    by rewrite res_eq // vset_other.
  - exact: ei_path I.
  - move=> c l hc hl; rewrite (ei_col I) // ?sm //; lia.
by exists full; apply: (visit_bump _ D).
Qed.

Lemma e_downP k0 s : (k0 = 0 \/ k0 = 1 /\ nc = 1 /\ 1 < n)%N ->
  Einv s -> e_new d s < c_chi (e_c s) -> Einv (e_down rnd k0 nc L d ahat s).
Proof.
move=> K0 [I [full V] Lo Mo] lt; have nd := e_newP I; have kn := ei_k I.
rewrite /e_down; case ek : (e_k s) => [|k].
  rewrite ek in nd V; rewrite nd in lt.
  have [f [D one]] := visit_store V lt.
  rewrite nd; set s1 := ES _ _ _ _ _ _ _ _ _.
  have I1 : Ecom s1.
    have [_ A1 A2 A3 A4 A5] := I; rewrite ek in A1 A2 A3 A5; by split.
  have k0n : (k0 < n)%N by lia.
  have D1 : Done f (e_c s1) k0 (e_z s1) (e_st s1).
    case: K0 => [-> //|[-> [n1 _]]]; apply: done_up => //.
    by rewrite /= (one n1).
  have [I2 [V2 sm]] := e_nextP (s := s1) k0n (leq0n _) D1 I1.
  have p0 : (0 < k0)%N -> (0 < e_path s 0)%N by move=> h; case: K0 => [e|[_ [_ h1]]]; [lia|have := ei_path I h1; lia].
  split=> //=.
  - move=> c l hc hl; have c0 : c = 0%N by lia.
    subst c; rewrite -/(wb k0 (e_z s) (e_st s)) -[RHS]/(sums (e_z (e_next k0 s1)) l 0) sm; last by lia.
    by rewrite (ei_col I) ?ek //; lia.
  - move=> a b hab; have -> : a = b by lia.
    by [].
rewrite ek in kn V Lo Mo nd.
have pk := ei_path I kn.
have Skp : e_S s (e_path s k) k = sums (e_z s) (e_path s k) k by apply: Lo => //; lia.
have Lk j : (k < j < n)%N -> e_left s j = res (e_z s) j by move=> h; apply: (ei_left I); rewrite ek; lia.
have [|A B] := e_colsP (p := e_path s k) _ Skp Lk; first by lia.
set S := e_cols _ _ _ _ _ in A B *; clearbody S.
have eac : ahat k + S k k = cond (e_z s) k by rewrite A ?sums_cond //; lia.
rewrite /= !vset_same eac; set z' := vset k _ (e_z s).
have E m : (k < m)%N -> z' m = e_z s m by move=> h; rewrite /z' vset_other //; lia.
have ekk : z' k = rnd (cond (e_z s) k) by rewrite /z' vset_same.
clearbody z'.
have Sz l b : (k <= l)%N -> sums z' l b = sums (e_z s) l b by move=> h; apply: sums_ext => m hm; apply: E; lia.
have cz l : (k <= l)%N -> cond z' l = cond (e_z s) l by move=> h; rewrite -!sums_cond Sz.
split=> /=.
- split=> //=.
  + by lia.
  + move=> l hl; case: (k =P l) => [<-|ne]; first by rewrite vset_same cz.
    rewrite vset_other // (ei_ac I) ?ek ?cz //; lia.
  + move=> l hl; case: (k =P l) => [<-|ne].
      by rewrite vset_same nd; apply: pd_ext => m hm; rewrite E //; lia.
    rewrite vset_other // (ei_dist I) ?ek; last by lia.
    by apply: pd_ext => m hm; rewrite E //; lia.
  + move=> l hl; have ln : (l < n)%N by lia.
    case: (k =P l) => [<-|ne]; first by rewrite vset_same res_eq ?cz ?ekk //; lia.
    rewrite vset_other // Lk ?res_eq // ?cz ?E //; lia.
  + exact: ei_path I.
  + move=> c l hc hl; rewrite Sz; last by lia.
    case: (c =P k) => [e|ne].
      subst c; case: (leqP l (e_path s k)) => h; first by apply: A; lia.
      by rewrite B ?Lo //; [lia|right; lia].
    by rewrite B ?(ei_col I) ?ek //; [lia|left].
- exists full; apply: (visit_down (k := k)) V _ _ _ => //; first by lia.
  + by move=> l hl; rewrite E ?vset_other //; lia.
  + by rewrite vset_same ekk.
- move=> c l hc hl; have := Mo c k => h; rewrite Sz; last by lia.
  by rewrite B ?Lo //; [lia|left; lia].
- by move=> a b h; apply: Mo; lia.
Qed.

Lemma e_innerP fuel k0 s s1 : (k0 = 0 \/ k0 = 1 /\ nc = 1 /\ 1 < n)%N -> Einv s ->
  e_inner rnd fuel k0 nc L d ahat s = Some s1 -> Einv s1 /\ c_chi (e_c s1) <= e_new d s1.
Proof.
move=> K0; elim: fuel s => [|fuel IH] s I /=; case: ltP => // lt.
- by case=> <-.
- by apply: IH; apply: e_downP.
- by case=> <-.
Qed.

Lemma e_upP m il s : (n <= m + e_k s)%N -> Uinv il s ->
  match e_up m n d s with
  | (s2, false) => Uinv il s2
  | (s2, true) => exists full w st, Done full (e_c s2) n w st
  end.
Proof.
elim: m s => [|m IH] s hm U; have kn := ei_k (ui_com U); first by lia.
rewrite /=; have nd := e_newP (ui_com U).
case: (boolP (c_chi (e_c s) <= e_new d s)) => // ge; rewrite nd in ge.
have [full V] := ui_v U.
have D := done_up kn (visit_far kn V ge) ge.
case: eqP => ek; first by exists full, (e_z s), (e_st s); move: D; rewrite (_ : (e_k s).+1 = n) //; lia.
have kn' : ((e_k s).+1 < n)%N by lia.
have [I' [V' sm]] := e_nextP kn' (leqnSn _) D (ui_com U).
apply: IH => /=; first by lia.
split=> //=; rewrite -?/(e_next _ _).
- have := ui_il U; lia.
- move=> c l hc hl hk; rewrite -[RHS]/(sums (e_z (e_next (e_k s).+1 s)) l c) sm //.
  apply: (ui_low U) => //; lia.
- move=> c l hc hl; rewrite -[RHS]/(sums (e_z (e_next (e_k s).+1 s)) l c) sm; last by lia.
  case: (c =P e_k s) => [e|ne].
    subst c; apply: (ei_col (ui_com U)); lia.
  apply: (ui_mid U); lia.
- exact: ui_mono U.
Qed.

Lemma e_path_lowP j k p a : (forall a b, (a <= b < j)%N -> (p b <= p a)%N) ->
  e_path_low j k p a = if (a < j)%N then maxn (p a) k else p a.
Proof.
elim: j p => [|j IH] p M //=; case: ifP => h.
  rewrite IH; last by move=> x y hxy; rewrite !vset_other; [apply: M|..]; lia.
  by rewrite /vset; case: eqP => [->|ne]; [rewrite ltnn ltnSn; lia|]; case: ifP => h1; case: ifP => h2 //; lia.
case: ifP => // ha; have := M a j; lia.
Qed.

Lemma e_loopP fuel fin k0 s c : (k0 = 0 \/ k0 = 1 /\ nc = 1 /\ 1 < n)%N -> Einv s ->
  e_loop rnd fuel fin n k0 nc L d ahat s = Some c -> exists full w st, Done full c n w st.
Proof.
move=> K0; elim: fuel s => [|fuel IH] s I //=.
case e1 : e_inner => [s1|] //; have [I1 ge] := e_innerP K0 I e1.
have U1 : Uinv (e_k s1) s1.
  have [C V Lo Mo] := I1; split=> //; first by move=> x l hx hl _; apply: Lo.
  by move=> x l hx; lia.
have := e_upP (leq_addr _ _) U1.
case e2 : e_up => [s2 [|]] H; first by case=> <-.
apply: IH; have [C V il Lo Mi Mo] := H; set il0 := e_k s1 in Lo Mi Mo il *.
have M' a b : (a <= b < il0)%N ->
    ((fun j => if (il0 <= j)%N && (j < e_k s2)%N then e_k s2 else e_path s2 j) b <=
     (fun j => if (il0 <= j)%N && (j < e_k s2)%N then e_k s2 else e_path s2 j) a)%N.
  move=> hab /=; have -> : (il0 <= b)%N = false by lia.
  have -> : (il0 <= a)%N = false by lia.
  exact: Mo.
have P a : e_paths il0 (e_k s2) (e_path s2) a =
    if (a < il0)%N then maxn (e_path s2 a) (e_k s2) else if (a < e_k s2)%N then e_k s2 else e_path s2 a.
  rewrite /e_paths e_path_lowP //; case: (ltnP a il0) => h //=.
split=> //=.
- have [C1 C2 C3 C4 C5 C6] := C; split=> //= x hx; rewrite P; have := C5 x hx.
  by case: ifP => h; [lia|case: ifP; lia].
- move=> x l hx; rewrite P; case: ifP => h; first by move=> hl; apply: Lo; lia.
  by rewrite hx => hl; apply: Mi => //; lia.
- move=> a b hab; rewrite !P; have := Mo a b.
  by do !case: ifP => ?; lia.
Qed.
Theorem estimILS_closest fuel R : estimILS rnd fuel chi0 n nc L d ahat = Some R ->
  (exists l : seq 'cV[int]_n, uniq l /\ size l = nc /\ all (fun z => sqdist (ldl n L d) (cv n ahat) z < chi0) l) ->
  closest_integers (ldl n L d) (cv n ahat) nc (asv R).
Proof.
rewrite /estimILS; set k0 := if _ then _ else _; case e : e_loop => [c|] //= [<-].
have K0 : (k0 = 0 \/ k0 = 1 /\ nc = 1 /\ 1 < n)%N by rewrite /k0; case: ifP => [/andP[/eqP -> ->]|]; [right|left].
by have [full [w [st D]]] := e_loopP K0 e_initP e; apply: done_closest D _.
Qed.
End Cands.
End Search.
