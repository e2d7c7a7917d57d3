From Coq Require Import ZArith List Lia Bool ZifyBool ZifyNat QArith Qround Lqa.
From Verif Require Import CssrState CssrFacts SbasModel SbasIonoModel SbasSpec SbasIonoSpec SbasGrid.
From Verif Require Import BaseFacts.
From Verif Require Import Base.
Import ListNotations.
Notation length := List.length.
Open Scope Z_scope.

(* ---------- the position in the cell ---------- *)
Lemma fdiv_bounds q n : 0 < n -> (qz (fdiv q n) <= q /\ q < qz (fdiv q n) + qz n)%Q.
Proof.
  intros Hn. unfold fdiv, qz. rewrite inject_Z_mult.
  pose proof (Qfloor_le (q / inject_Z n)) as L. pose proof (Qlt_floor (q / inject_Z n)) as R. rewrite inject_Z_plus in R.
  assert (P : (0 < inject_Z n)%Q) by (change 0%Q with (inject_Z 0); rewrite <- Zlt_Qlt; exact Hn).
  assert (E : (q == q / inject_Z n * inject_Z n)%Q) by (field; intros K; rewrite K in P; discriminate).
  set (f := inject_Z (Qfloor (q / inject_Z n))) in *. set (t := (q / inject_Z n)%Q) in *. change (inject_Z 1) with 1%Q in R. split; nra.
Qed.
Lemma fdiv_mult q n : exists k, fdiv q n = k * n.
Proof. unfold fdiv. eauto. Qed.
Lemma frac q b n : 0 < n -> (qz b <= q /\ q < qz b + qz n)%Q -> (0 <= (q - qz b) / qz n /\ (q - qz b) / qz n < 1)%Q.
Proof.
  intros Hn [A B]. assert (P : (0 < qz n)%Q) by (change 0%Q with (inject_Z 0); unfold qz; rewrite <- Zlt_Qlt; exact Hn).
  split; [apply Qle_shift_div_l|apply Qlt_shift_div_r]; try exact P; lra.
Qed.
Definition lon' (lon : Q) : Q := if Qle_bool (qz 180) lon then (lon - qz 360)%Q else lon.
Lemma cell_unit lat lon ps x y : cell lat lon = (ps, x, y) -> (0 <= x < 1 /\ 0 <= y < 1)%Q.
Proof.
  unfold cell. fold (lon' lon). set (l := lon' lon). clearbody l.
  destruct (Qle_bool (qz (-55)) lat && qlt lat (qz 55)).
  - intros H. injection H as _ <- <-. split; apply frac; try lia; apply fdiv_bounds; lia.
  - set (q := if _ && _ then _ else _). destruct q as [[[l0 l1] l2] l3]. intros H. injection H as _ <- <-.
    split; apply frac; try lia; [apply fdiv_bounds; lia|].
    pose proof (fdiv_bounds (lat - qz 5) 10 ltac:(lia)) as [A B]. unfold qz in *. rewrite inject_Z_plus. split; lra.
Qed.

(* ---------- weights ---------- *)
Lemma qlt_false a b : qlt a b = false -> (b <= a)%Q.
Proof. unfold qlt. rewrite negb_false_iff. apply Qle_bool_iff. Qed.
Lemma weights_ok l x y w : length l = 4%nat -> (0 <= x < 1)%Q -> (0 <= y < 1)%Q -> weights l x y = Some w ->
  length w = 4%nat /\ Forall (fun q => 0 <= q)%Q w /\ (sumq w == 1)%Q /\
  (forall i, has l i = false -> (nth i w 0 == 0)%Q).
Proof.
  intros L [X0 X1] [Y0 Y1] H. destruct l as [|a [|b [|c [|d [|]]]]]; try discriminate L. clear L.
  assert (P : forall p q, (0 <= p)%Q -> (0 <= q)%Q -> (0 <= p * q)%Q) by (intros; now apply Qmult_le_0_compat).
  unfold weights in H. destruct (_ <? 3)%nat; [discriminate|].
  unfold has in *. cbn [nth_error] in *.
  assert (FA : forall p q r s, (0 <= p -> 0 <= q -> 0 <= r -> 0 <= s -> Forall (fun q => 0 <= q) [p; q; r; s])%Q).
  { intros. repeat (apply Forall_cons; [assumption|]). apply Forall_nil. }
  assert (SQ : forall p q r s, (sumq [p; q; r; s] == p + q + r + s)%Q) by (intros; unfold sumq; cbn [fold_right]; ring).
  destruct a, b, c, d; cbn [andb triangles] in H; unfold has in H; cbn [nth_error andb] in H; try discriminate H;
    try (destruct (qlt _ 0) eqn:Q0; [discriminate H|apply qlt_false in Q0]); injection H as <-; cbn [setw upd];
    (split; [reflexivity|]); (split; [apply FA; try (apply P); lra|]);
    (split; [rewrite SQ; ring|]); intros [|[|[|[|j]]]] Hh; cbn [nth nth_error] in *; try discriminate Hh; try reflexivity; destruct j; reflexivity.
Qed.
Lemma sums_between : forall l w d v m M, length w = length l -> sums l w = (Some d, v) ->
  Forall (fun q => 0 <= q)%Q w -> (forall i, has l i = false -> (nth i w 0 == 0)%Q) ->
  (forall i z g, nth_error l i = Some (Some (Some z, g)) -> (m <= qz z <= M)%Q) ->
  (m * sumq w <= d <= M * sumq w)%Q.
Proof.
  induction l as [|o l IH]; intros [|q w] d v m M L H F Z B; try discriminate L.
  - cbn in *. injection H as <- _. split; unfold sumq; cbn; lra.
  - cbn [sums] in H. inversion F as [|? ? Fq F']; subst. injection L as L.
    assert (Z' : forall i, has l i = false -> (nth i w 0 == 0)%Q) by (intros i Hi; exact (Z (S i) Hi)).
    assert (B' : forall i z g, nth_error l i = Some (Some (Some z, g)) -> (m <= qz z <= M)%Q) by (intros i z g Hi; exact (B (S i) z g Hi)).
    destruct (sums l w) as [d' v'] eqn:E. change (sumq (q :: w)) with (q + sumq w)%Q.
    destruct o as [[a g]|].
    + destruct a as [z|]; [|discriminate H]. destruct d' as [d'|]; [|discriminate H]. injection H as <- _.
      destruct (IH w d' v' m M L E F' Z' B') as [I1 I2]. destruct (B 0%nat z g eq_refl) as [B1 B2].
      split; nra.
    + injection H as -> _. destruct (IH w d v' m M L E F' Z' B') as [I1 I2]. assert (Q0 : (q == 0)%Q) by exact (Z 0%nat eq_refl).
      rewrite Q0. split; lra.
Qed.

(* ---------- the grid table ---------- *)
Fixpoint nodupb (l : list (Z * Z)) : bool :=
  match l with [] => true | p :: r => negb (existsb (fun q => (fst q =? fst p) && (snd q =? snd p)) r) && nodupb r end.
Lemma nodupb_ok l : nodupb l = true -> NoDup l.
Proof.
  induction l as [|p l IH]; intros H; constructor; cbn [nodupb] in H; apply andb_prop in H; destruct H as [A B]; [|now apply IH].
  intros K. rewrite negb_true_iff in A. assert (existsb (fun q => (fst q =? fst p) && (snd q =? snd p)) l = true) as E; [|congruence].
  apply existsb_exists. exists p. split; [assumption|]. now rewrite !Z.eqb_refl.
Qed.
Lemma bands_in b : 0 <= b <= 10 <-> In b (arange 0 11 1).
Proof.
  unfold arange. rewrite in_map_iff. split.
  - intros H. exists (Z.to_nat b). rewrite in_seq. lia.
  - intros (k & <- & H). apply in_seq in H. lia.
Qed.
Lemma igp_nodup b : 0 <= b <= 10 -> NoDup (igp_t b).
Proof.
  intros H. apply bands_in in H. apply nodupb_ok. revert b H. apply forallb_forall. vm_compute. reflexivity.
Qed.

(* ---------- searching ---------- *)
Lemma where_some p : forall l k j, where_ p l k = Some j -> (k <= j)%nat /\ nth_error l (j - k) = Some p.
Proof.
  induction l as [|q l IH]; intros k j H; cbn [where_] in H; [discriminate|].
  destruct ((fst q =? fst p) && (snd q =? snd p)) eqn:E.
  - injection H as <-. split; [lia|]. rewrite Nat.sub_diag. cbn. f_equal. destruct p, q; cbn in *. f_equal; lia.
  - apply IH in H. destruct H as [A B]. split; [lia|]. replace (j - k)%nat with (S (j - S k)) by lia. exact B.
Qed.
Lemma where_none p : forall l k, where_ p l k = None -> ~ In p l.
Proof.
  induction l as [|q l IH]; intros k H K; [destruct K|]. cbn [where_] in H.
  destruct ((fst q =? fst p) && (snd q =? snd p)) eqn:E; [discriminate|]. destruct K as [->|K]; [rewrite !Z.eqb_refl in E; discriminate|].
  exact (IH _ H K).
Qed.
Lemma pick_nth t : forall idx gp, pick t idx = Some gp -> length gp = length idx /\
  forall k, nth_error gp k = match nth_error idx k with Some n => nth_error t (Z.to_nat n) | None => None end.
Proof.
  induction idx as [|n idx IH]; intros gp H; cbn [pick] in H.
  - injection H as <-. split; [reflexivity|]. now intros [|k].
  - destruct (nth_error t (Z.to_nat n)) as [a|] eqn:E; [|discriminate]. cbn in H. destruct (pick t idx) as [r|]; [|discriminate]. cbn in H.
    injection H as <-. destruct (IH r eq_refl) as [A B]. split; [cbn; lia|]. intros [|k]; cbn; [now rewrite E|apply B].
Qed.
Lemma pick_some t : forall idx, Forall (fun k => 0 <= k < Z.of_nat (length t)) idx -> exists gp, pick t idx = Some gp.
Proof.
  induction 1 as [|n idx H _ [gp E]]; cbn [pick]; [eauto|]. destruct (nth_error t (Z.to_nat n)) eqn:K; [|apply nth_error_None in K; lia].
  cbn. rewrite E. cbn. eauto.
Qed.
Section Band.
Variables (s : sst) (b : Z) (v : list (option Z)) (g idx : list Z) (gp : list (Z * Z)).
Hypothesis Hb : 0 <= b <= 10.
Hypothesis Ev : zget b (ss_vtec s) = Some v.
Hypothesis Eg : zget b (ss_givei s) = Some g.
Hypothesis Ei : zget b (ss_igp s) = Some idx.
Hypothesis N : NoDup idx.
Hypothesis R : Forall (fun k => 0 <= k < Z.of_nat (length (igp_t b))) idx.
Hypothesis Lv : length v = length idx.
Hypothesis Lg : length g = length idx.
Hypothesis Ep : pick (igp_t b) idx = Some gp.
Lemma look_ok p : exists o, look gp v g p = Some o /\
  (forall d gi, o = Some (d, gi) <-> exists n, nth_error (igp_t b) n = Some p /\ grid s b (Z.of_nat n) = Some (d, gi) /\ 0 < gi).
Proof.
  destruct (pick_nth _ _ _ Ep) as [Lp Hp]. unfold look.
  assert (G : forall k n, nth_error idx k = Some (Z.of_nat n) -> grid s b (Z.of_nat n) = nth_error (combine v g) k).
  { intros k n Hk. unfold grid. rewrite Ei, Ev, Eg. apply at_point_nth; [assumption|rewrite combine_length; lia|assumption]. }
  assert (INV : forall n d gi, grid s b (Z.of_nat n) = Some (d, gi) -> exists k, nth_error idx k = Some (Z.of_nat n)).
  { intros n d gi. unfold grid. rewrite Ei, Ev, Eg. clear -Lv Lg. intros H.
    assert (In (Z.of_nat n) idx) as K.
    { revert H. generalize (combine v g). clear. induction idx as [|q l IH]; intros [|a r] H; cbn [at_point] in H; try discriminate.
      destruct (Z.eqb_spec q (Z.of_nat n)); [now left|right; eapply IH; eassumption]. }
    apply In_nth_error in K. exact K. }
  destruct (where_ p gp 0) as [k|] eqn:W.
  - apply where_some in W. destruct W as [_ W]. rewrite Nat.sub_0_r in W. rewrite Hp in W.
    destruct (nth_error idx k) as [n|] eqn:Ek; [|discriminate].
    assert (Hk : (k < length idx)%nat) by (apply nth_error_Some; congruence).
    assert (Rn : 0 <= n) by (rewrite Forall_forall in R; apply (R n); eapply nth_error_In; eassumption).
    destruct (Nat.ltb_spec (length g) k); [lia|].
    destruct (nth_error g k) as [gi|] eqn:Egk; [|apply nth_error_None in Egk; lia]. cbn [bind].
    destruct (nth_error v k) as [d|] eqn:Evk; [|apply nth_error_None in Evk; lia].
    assert (Gn : grid s b (Z.of_nat (Z.to_nat n)) = Some (d, gi)).
    { rewrite (G k) by (rewrite Z2Nat.id by assumption; exact Ek). rewrite combine_nth_error by lia. now rewrite Egk, Evk. }
    assert (U : forall m, nth_error (igp_t b) m = Some p -> m = Z.to_nat n).
    { intros m Hm. apply (proj1 (NoDup_nth_error (igp_t b)) (igp_nodup b Hb)); [apply nth_error_Some; congruence|congruence]. }
    destruct (Z.leb_spec gi 0).
    + exists None. split; [reflexivity|]. intros d' g'. split; [discriminate|]. intros (m & Hm & Hg & Hpos). rewrite (U m Hm), Gn in Hg. injection Hg as <- <-. lia.
    + exists (Some (d, gi)). split; [reflexivity|]. intros d' g'. split.
      * intros K. injection K as <- <-. exists (Z.to_nat n). auto.
      * intros (m & Hm & Hg & Hpos). rewrite (U m Hm), Gn in Hg. now injection Hg as <- <-.
  - exists None. split; [reflexivity|]. intros d gi. split; [discriminate|]. intros (n & Hn & Hg & _). exfalso.
    destruct (INV n d gi Hg) as [k Hk]. apply (where_none _ _ _ W). apply (nth_error_In _ k). rewrite Hp, Hk, Nat2Z.id. exact Hn.
Qed.
End Band.
Definition avail_in (bands : list Z) (s : sst) (p : Z * Z) (v : option Z) (g : Z) : Prop :=
  exists b n, In b bands /\ nth_error (igp_t b) n = Some p /\ grid s b (Z.of_nat n) = Some (v, g) /\ 0 < g.
Lemma search_ok s p : wf_grid s -> forall bands acc, Forall (fun b => 0 <= b <= 10) bands ->
  exists o, search bands s p acc = Some o /\
    (forall v g, o = Some (v, g) -> avail_in bands s p v g \/ acc = Some (v, g)) /\
    (o = None -> acc = None /\ forall v g, ~ avail_in bands s p v g).
Proof.
  intros WF. induction bands as [|b bands IH]; intros acc F; cbn [search].
  - exists acc. split; [reflexivity|]. split; [auto|]. intros ->. split; [reflexivity|]. intros v g (b & n & [] & _).
  - inversion F as [|? ? Fb F']; subst.
    assert (MONO : forall v g, avail_in bands s p v g -> avail_in (b :: bands) s p v g).
    { intros v g (b' & n & K & R). exists b', n. split; [now right|exact R]. }
    destruct (zget b (ss_vtec s)) as [v|] eqn:Ev; [destruct (zget b (ss_givei s)) as [g|] eqn:Eg|].
    + destruct (WF b Fb v g Ev Eg) as (idx & Ei & N & R & Lv & Lg). rewrite Ei. cbn [bind].
      destruct (pick_some _ _ R) as [gp Ep]. rewrite Ep. cbn [bind].
      destruct (look_ok s b v g idx gp Fb Ev Eg Ei N R Lv Lg Ep p) as (o & Eo & Ho). rewrite Eo. cbn [bind].
      destruct (IH (match o with Some x => Some x | None => acc end) F') as (r & Er & H1 & H2). exists r. split; [exact Er|]. split.
      * intros v' g' ->. destruct (H1 v' g' eq_refl) as [K|K]; [left; auto|]. destruct o as [[d gi]|]; [|auto].
        injection K as <- <-. left. destruct (proj1 (Ho d gi) eq_refl) as (n & A & B & C). exists b, n. repeat split; auto. now left.
      * intros ->. destruct (H2 eq_refl) as [K1 K2]. destruct o as [x|]; [discriminate|]. split; [exact K1|].
        intros v' g' (b' & n & [->|K] & A & B & C); [|apply (K2 v' g'); exists b', n; auto].
        assert (@None pt = Some (v', g')) by (apply Ho; exists n; auto). discriminate.
    + destruct (IH acc F') as (r & Er & H1 & H2). exists r. split; [exact Er|]. split.
      * intros v' g' K. destruct (H1 v' g' K); auto.
      * intros K. destruct (H2 K) as [K1 K2]. split; [exact K1|]. intros v' g' (b' & n & [->|K'] & A & B & C); [|apply (K2 v' g'); exists b', n; auto].
        unfold grid in B. rewrite Ev, Eg in B. now destruct (zget b' (ss_igp s)).
    + destruct (IH acc F') as (r & Er & H1 & H2). exists r. split; [exact Er|]. split.
      * intros v' g' K. destruct (H1 v' g' K); auto.
      * intros K. destruct (H2 K) as [K1 K2]. split; [exact K1|]. intros v' g' (b' & n & [->|K'] & A & B & C); [|apply (K2 v' g'); exists b', n; auto].
        unfold grid in B. rewrite Ev in B. now destruct (zget b' (ss_igp s)).
Qed.
Lemma avail_all s p v g : avail_in (arange 0 11 1) s p v g <-> avail s p v g.
Proof.
  unfold avail_in, avail. split; intros (b & n & H & R); exists b, n; (split; [now apply bands_in|exact R]).
Qed.
(** the four corners as searched *)
Lemma search_all s : wf_grid s -> forall ps, exists l,
  (fix go ps := match ps with [] => Some [] | p :: r => do o <- search (arange 0 11 1) s p None; do l <- go r; Some (o :: l) end) ps = Some l /\
  Forall2 (fun p o => (forall v g, o = Some (v, g) -> avail s p v g) /\ (o = None -> forall v g, ~ avail s p v g)) ps l.
Proof.
  intros WF. assert (F : Forall (fun b => 0 <= b <= 10) (arange 0 11 1)) by (apply Forall_forall; intros b; apply bands_in).
  induction ps as [|p ps (l & E & H)]; [exists []; auto|].
  destruct (search_ok s p WF (arange 0 11 1) None F) as (o & Eo & H1 & H2). rewrite Eo. cbn [bind]. rewrite E. cbn [bind].
  exists (o :: l). split; [reflexivity|]. constructor; [|exact H]. split.
  - intros v g K. destruct (H1 v g K) as [A|A]; [now apply avail_all|discriminate].
  - intros K v g A. apply avail_all in A. exact (proj2 (H2 K) v g A).
Qed.
Lemma cell_four lat lon ps x y : cell lat lon = (ps, x, y) -> length ps = 4%nat.
Proof.
  unfold cell. destruct (Qle_bool (qz (-55)) lat && qlt lat (qz 55)); [intros H; injection H as <- _ _; reflexivity|].
  set (q := if Qle_bool (qz 75) lat && _ then _ else _). destruct q as [[[? ?] ?] ?]. intros H; injection H as <- _ _; reflexivity.
Qed.

Theorem iono_between lat lon s ps x y d var m M : wf_grid s -> cell lat lon = (ps, x, y) -> ionoSBAS lat lon s = IVal (Some d) var ->
  (forall p z g, In p ps -> avail s p (Some z) g -> (m <= qz z <= M)%Q) -> (m <= d <= M)%Q.
Proof.
  intros WF C H B. unfold ionoSBAS, searchIGP in H. rewrite C in H. destruct (search_all s WF ps) as (l & E & F2).
  rewrite E in H. cbn [bind] in H. destruct (cell_unit _ _ _ _ _ C) as [X Y].
  assert (L : length l = 4%nat) by (transitivity (length ps); [symmetry; exact (Forall2_len _ _ _ F2)|eapply cell_four; eassumption]).
  destruct (weights l x y) as [w|] eqn:W; [|discriminate]. destruct (weights_ok l x y w L X Y W) as (Lw & Fw & Sw & Zw).
  destruct (sums l w) as [d' v'] eqn:S. injection H as -> ->.
  destruct (sums_between l w d var m M ltac:(congruence) S Fw Zw) as [A1 A2].
  - intros i z g Hi. clear -F2 Hi B. revert i Hi. induction F2 as [|p o ps l [K _] F2 IH]; intros [|i] Hi; cbn in Hi; try discriminate.
    + injection Hi as ->. apply (B p z g); [now left|apply K; reflexivity].
    + apply (IH ltac:(intros; eapply B; [right; eassumption|eassumption]) i Hi).
  - rewrite Sw in A1, A2. split; lra.
Qed.
(** a value is produced whenever the four corners carry a usable delay *)
Theorem iono_full lat lon s ps x y : wf_grid s -> cell lat lon = (ps, x, y) ->
  (forall p, In p ps -> (exists v g, avail s p v g) /\ forall v g, avail s p v g -> v <> None) ->
  exists d var, ionoSBAS lat lon s = IVal (Some d) var.
Proof.
  intros WF C H. unfold ionoSBAS, searchIGP. rewrite C. destruct (search_all s WF ps) as (l & E & F2). rewrite E. cbn [bind].
  pose proof (cell_four _ _ _ _ _ C) as Lp.
  assert (G : Forall (fun o => exists z g, o = Some (Some z, g)) l).
  { clear -F2 H. induction F2 as [|p o ps l [K1 K2] F2 IH]; constructor.
    - destruct (H p (or_introl eq_refl)) as [(v & g & A) B]. destruct o as [[o gi]|].
      + specialize (K1 o gi eq_refl). specialize (B o gi K1). destruct o as [z|]; [eauto|contradiction].
      + exfalso. exact (K2 eq_refl v g A).
    - apply IH. intros q Hq. apply H. now right. }
  apply Forall2_len in F2. destruct l as [|a [|b [|c [|e [|]]]]]; try (cbn in F2; congruence).
  repeat match goal with K : Forall _ (_ :: _) |- _ => inversion K; clear K; subst end.
  repeat match goal with K : exists z g, _ = _ |- _ => destruct K as (? & ? & ->) end.
  cbn. eexists _, _. reflexivity.
Qed.
(** with fewer than three usable corners there is no correction *)
Theorem iono_few lat lon s ps x y i j : wf_grid s -> cell lat lon = (ps, x, y) -> (i < j < 4)%nat ->
  (forall k p, (k = i \/ k = j) -> nth_error ps k = Some p -> forall v g, ~ avail s p v g) -> ionoSBAS lat lon s = IZero.
Proof.
  intros WF C Hij H. unfold ionoSBAS, searchIGP. rewrite C. destruct (search_all s WF ps) as (l & E & F2). rewrite E. cbn [bind].
  pose proof (cell_four _ _ _ _ _ C) as Lp.
  assert (G : forall k, k = i \/ k = j -> nth_error l k = Some None).
  { intros k Hk. assert (exists p, nth_error ps k = Some p) as [p Hp].
    { destruct (nth_error ps k) eqn:K; [eauto|]. apply nth_error_None in K. lia. }
    specialize (H k p Hk Hp). clear -F2 H Hp. revert k Hp. induction F2 as [|q o ps l [K1 K2] F2 IH]; intros [|k] Hp; cbn in *; try discriminate.
    - injection Hp as ->. destruct o as [[v g]|]; [|reflexivity]. exfalso. exact (H v g (K1 v g eq_refl)).
    - now apply IH. }
  apply Forall2_len in F2. destruct l as [|a [|b [|c [|e [|]]]]]; try (cbn in F2; congruence).
  pose proof (G i (or_introl eq_refl)) as Gi. pose proof (G j (or_intror eq_refl)) as Gj.
  destruct i as [|[|[|[|i]]]], j as [|[|[|[|j]]]]; try lia; cbn in Gi, Gj; injection Gi as ->; injection Gj as ->;
  unfold weights; cbn [filter]; repeat match goal with |- context [match ?o with Some _ => true | None => false end] => destruct o end; reflexivity.
Qed.

(* ---------- exact for affine fields ---------- *)
Lemma affine_cases l x y w d v A B C : length l = 4%nat -> weights l x y = Some w -> sums l w = (Some d, v) ->
  (forall z g, nth_error l 0 = Some (Some (Some z, g)) -> (qz z == A)%Q) ->
  (forall z g, nth_error l 1 = Some (Some (Some z, g)) -> (qz z == A + C)%Q) ->
  (forall z g, nth_error l 2 = Some (Some (Some z, g)) -> (qz z == A + B)%Q) ->
  (forall z g, nth_error l 3 = Some (Some (Some z, g)) -> (qz z == A + B + C)%Q) ->
  (d == A + B * x + C * y)%Q.
Proof.
  intros L W S H0 H1 H2 H3. destruct l as [|a [|b [|c [|e [|]]]]]; try discriminate L. cbn [nth_error] in *. clear L.
  unfold weights in W. destruct (_ <? 3)%nat; [discriminate|]. unfold has in W. cbn [nth_error] in W.
  destruct a as [[[a|] ga]|], b as [[[b|] gb]|], c as [[[c|] gc]|], e as [[[e|] ge]|]; cbn [andb triangles] in W; unfold has in W; cbn [nth_error andb] in W;
    try discriminate W; try (destruct (qlt _ 0); [discriminate W|]); injection W as <-; cbn in S; try discriminate S; injection S as <- _;
    repeat match goal with H : forall z g, Some (Some (Some ?a, ?b)) = _ -> _ |- _ => specialize (H a b eq_refl); rewrite H; clear H end; ring.
Qed.
Lemma mid_cell lat lon ps x y : (qz (-75) <= lat)%Q -> (lat < qz 75)%Q -> cell lat lon = (ps, x, y) ->
  exists a b h, (h = 5 \/ h = 10) /\ ps = [(a, norm b); (a + h, norm b); (a, norm (b + h)); (a + h, norm (b + h))] /\
    (qz b <= lon' lon < qz b + qz h)%Q /\ (qz a <= lat < qz a + qz h)%Q /\
    (x == (lon' lon - qz b) / qz h)%Q /\ (y == (lat - qz a) / qz h)%Q /\ a mod 5 = 0 /\ b mod h = 0 /\
    ((h = 5 /\ (qz (-55) <= lat < qz 55)%Q) \/ (h = 10 /\ a mod 10 = 5 /\ ((lat < qz (-55))%Q \/ (qz 55 <= lat)%Q))).
Proof.
  intros L1 L2. unfold cell. fold (lon' lon). set (l := lon' lon). clearbody l.
  destruct (Qle_bool (qz (-55)) lat && qlt lat (qz 55)) eqn:E.
  - intros H. injection H as <- <- <-. exists (fdiv lat 5), (fdiv l 5), 5. split; [auto|]. split; [reflexivity|].
    split; [apply fdiv_bounds; lia|]. split; [apply fdiv_bounds; lia|]. split; [reflexivity|]. split; [reflexivity|].
    destruct (fdiv_mult lat 5) as [k Hk], (fdiv_mult l 5) as [k' Hk'].
    rewrite Hk, Hk', !Z.mod_mul by lia. split; [reflexivity|]. split; [reflexivity|]. left. split; [reflexivity|].
    apply andb_prop in E. destruct E as [E1 E2]. apply Qle_bool_iff in E1. unfold qlt in E2. rewrite negb_true_iff in E2.
    split; [exact E1|]. apply Qnot_le_lt. intros K. apply Qle_bool_iff in K. congruence.
  - assert (F1 : Qle_bool (qz 75) lat = false) by (destruct (Qle_bool (qz 75) lat) eqn:K; [apply Qle_bool_iff in K; exfalso; lra|reflexivity]).
    assert (F2 : qlt lat (qz (-75)) = false) by (unfold qlt; rewrite (proj2 (Qle_bool_iff _ _) L1); reflexivity).
    assert (F3 : Qle_bool (qz 85) lat = false) by (destruct (Qle_bool (qz 85) lat) eqn:K; [apply Qle_bool_iff in K; exfalso; assert (c : (qz 75 <= qz 85)%Q) by (vm_compute; discriminate); lra|reflexivity]).
    assert (F4 : qlt lat (qz (-85)) = false).
    { unfold qlt. assert (K : (qz (-85) <= lat)%Q) by (assert (c : (qz (-85) <= qz (-75))%Q) by (vm_compute; discriminate); lra). now rewrite (proj2 (Qle_bool_iff _ _) K). }
    rewrite F1, F2, F3, F4, andb_false_r. cbn [andb]. intros H. injection H as <- <- <-.
    exists (fdiv (lat - qz 5) 10 + 5), (fdiv l 10), 10. split; [auto|].
    split. { cbn [map fst snd]. reflexivity. }
    split; [apply fdiv_bounds; lia|]. split.
    { pose proof (fdiv_bounds (lat - qz 5) 10 ltac:(lia)) as [P Q]. unfold qz in *. rewrite inject_Z_plus. split; lra. }
    split; [reflexivity|]. split; [reflexivity|].
    destruct (fdiv_mult (lat - qz 5) 10) as [k Hk], (fdiv_mult l 10) as [k' Hk']. rewrite Hk, Hk'. split; [|split; [apply Z.mod_mul; lia|]].
    + replace (k * 10 + 5) with ((2 * k + 1) * 5) by lia. apply Z.mod_mul. lia.
    + right. split; [reflexivity|]. split; [rewrite Z.add_comm, Z.mod_add by lia; reflexivity|].
      apply andb_false_iff in E. destruct E as [E|E].
      * left. apply Qnot_le_lt. intros K. apply Qle_bool_iff in K. congruence.
      * right. unfold qlt in E. rewrite negb_false_iff in E. now apply Qle_bool_iff.
Qed.

Theorem iono_affine lat lon s d var A B C : wf_grid s -> (qz (-75) <= lat < qz 75)%Q ->
  ionoSBAS lat lon s = IVal (Some d) var ->
  (forall la lo z g, (Qabs_le (qz lo - lon' lon) 10) -> (Qabs_le (qz la - lat) 10) -> avail s (la, norm lo) (Some z) g ->
     (qz z == A + B * qz lo + C * qz la)%Q) ->
  (d == A + B * lon' lon + C * lat)%Q.
Proof.
  intros WF [L1 L2] H F. destruct (cell lat lon) as [[ps x] y] eqn:Ec.
  destruct (mid_cell lat lon ps x y L1 L2 Ec) as (a & b & h & Hh & -> & [B1 B2] & [A1 A2] & Hx & Hy & _).
  unfold ionoSBAS, searchIGP in H. rewrite Ec in H. destruct (search_all s WF [(a, norm b); (a + h, norm b); (a, norm (b + h)); (a + h, norm (b + h))]) as (l & E & F2).
  rewrite E in H. cbn [bind] in H. destruct (weights l x y) as [w|] eqn:W; [|discriminate]. destruct (sums l w) as [d' v'] eqn:S. injection H as -> ->.
  assert (L : length l = 4%nat) by (symmetry; exact (Forall2_len _ _ _ F2)).
  assert (hq : (qz (a + h) == qz a + qz h /\ qz (b + h) == qz b + qz h)%Q) by (unfold qz; rewrite !inject_Z_plus; split; reflexivity).
  destruct hq as [hq1 hq2].
  assert (hb : (0 < qz h)%Q /\ (qz h <= 10)%Q) by (destruct Hh as [->| ->]; split; vm_compute; congruence).
  assert (P : forall i la lo z g, nth_error [(a, norm b); (a + h, norm b); (a, norm (b + h)); (a + h, norm (b + h))] i = Some (la, norm lo) ->
     nth_error l i = Some (Some (Some z, g)) -> avail s (la, norm lo) (Some z) g).
  { intros i la lo z g. clear -F2. revert i. induction F2 as [|p o ps l [K _] F2 IH]; intros [|i] Hi Hl; cbn in *; try discriminate.
    - injection Hi as ->. injection Hl as ->. now apply K.
    - eapply IH; eassumption. }
  set (A' := (A + B * qz b + C * qz a)%Q).
  transitivity (A' + (B * qz h) * x + (C * qz h) * y)%Q.
  - apply (affine_cases l x y w d var A' (B * qz h) (C * qz h) L W S); intros z g K.
    + rewrite (F a b z g); [unfold A'; ring|..]; [split; lra|split; lra|]. apply (P 0%nat a b z g eq_refl K).
    + rewrite (F (a + h) b z g); [unfold A'; rewrite hq1; ring|..]; [split; lra|split; lra|]. apply (P 1%nat (a + h) b z g eq_refl K).
    + rewrite (F a (b + h) z g); [unfold A'; rewrite hq2; ring|..]; [split; lra|split; lra|]. apply (P 2%nat a (b + h) z g eq_refl K).
    + rewrite (F (a + h) (b + h) z g); [unfold A'; rewrite hq1, hq2; ring|..]; [split; lra|split; lra|]. apply (P 3%nat (a + h) (b + h) z g eq_refl K).
  - unfold A'. rewrite Hx, Hy. field. intros K. rewrite K in hb. destruct hb as [hb _]. discriminate.
Qed.

(* ---------- the grid of bands 0 to 8 ---------- *)
Definition lats (lo : Z) : list Z :=
  (if existsb (Z.eqb lo) [-140; -50; 40; 130] then [-85] else []) ++ (if lo mod 10 =? 0 then [-75; -65] else []) ++ arange (-55) 23 5
  ++ (if lo mod 10 =? 0 then [65; 75] else []) ++ (if lo mod 90 =? 0 then [85] else []).
Lemma table : flat_map igp_t (arange 0 9 1) = flat_map (fun lo => map (fun la => (la, lo)) (lats lo)) (arange (-180) 72 5).
Proof. vm_compute. reflexivity. Qed.
Lemma arange_in a n st x : 0 < st -> In x (arange a n st) <-> exists k, 0 <= k < n /\ x = a + st * k.
Proof.
  intros Hs. unfold arange. rewrite in_map_iff. split.
  - intros (k & <- & H). apply in_seq in H. exists (Z.of_nat k). lia.
  - intros (k & H & ->). exists (Z.to_nat k). rewrite in_seq. lia.
Qed.
Lemma lats_in la lo : In la (lats lo) <-> (-55 <= la <= 55 /\ la mod 5 = 0) \/ ((la = -75 \/ la = -65 \/ la = 65 \/ la = 75) /\ lo mod 10 = 0) \/
   (la = 85 /\ lo mod 90 = 0) \/ (la = -85 /\ (lo = -140 \/ lo = -50 \/ lo = 40 \/ lo = 130)).
Proof.
  unfold lats. rewrite !in_app_iff, (arange_in (-55) 23 5 la) by lia.
  assert (M : (exists k, 0 <= k < 23 /\ la = -55 + 5 * k) <-> (-55 <= la <= 55 /\ la mod 5 = 0)).
  { split; [intros (k & H & ->); split; [lia|]; replace (-55 + 5 * k) with ((k - 11) * 5) by lia; apply Z.mod_mul; lia|].
    intros [H K]. exists ((la + 55) / 5). apply Z.mod_divide in K; [|lia]. destruct K as [q ->]. replace (q * 5 + 55) with ((q + 11) * 5) by lia. rewrite Z.div_mul by lia. lia. }
  assert (IF : forall (c : bool) l, In la (if c then l else []) <-> c = true /\ In la l) by (intros [|] l; cbn; intuition congruence).
  rewrite M, !IF, !Z.eqb_eq. cbn [In].
  assert (E : existsb (Z.eqb lo) [-140; -50; 40; 130] = true <-> (lo = -140 \/ lo = -50 \/ lo = 40 \/ lo = 130)).
  { cbn [existsb]. rewrite !orb_true_iff, !Z.eqb_eq. intuition congruence. }
  rewrite E. clear. intuition.
Qed.
Theorem grid_table la lo : In (la, lo) (flat_map igp_t (arange 0 9 1)) <-> in_grid la lo.
Proof.
  rewrite table, in_flat_map. unfold in_grid. split.
  - intros (lo' & H1 & H2). apply in_map_iff in H2. destruct H2 as (la' & E & H2). injection E as -> ->.
    apply arange_in in H1; [|lia]. destruct H1 as (k & Hk & ->). split; [lia|]. split; [|now apply lats_in].
    replace (-180 + 5 * k) with ((k - 36) * 5) by lia. apply Z.mod_mul. lia.
  - intros (H1 & H2 & H3). exists lo. split; [|apply (in_map (fun la => (la, lo))); now apply lats_in].
    apply arange_in; [lia|]. apply Z.mod_divide in H2; [|lia]. destruct H2 as [q ->]. exists (q + 36). lia.
Qed.

(* ---------- the corners are grid points ---------- *)
Lemma zlt a b : (qz a < qz b)%Q -> a < b.
Proof. unfold qz. now rewrite <- Zlt_Qlt. Qed.
Lemma zlt_add a b h : (qz a < qz b + qz h)%Q -> a < b + h.
Proof. unfold qz. rewrite <- inject_Z_plus, <- Zlt_Qlt. auto. Qed.
Lemma lon_range lon : (qz (-180) <= lon)%Q -> (lon < qz 540)%Q -> (qz (-180) <= lon' lon < qz 180)%Q.
Proof.
  intros A B. unfold lon'. destruct (Qle_bool (qz 180) lon) eqn:E.
  - apply Qle_bool_iff in E. unfold qz, inject_Z in *. split; lra.
  - split; [exact A|]. apply Qnot_le_lt. intros K. apply Qle_bool_iff in K. congruence.
Qed.
Lemma mod_of a h k : 0 < h -> 0 < k -> a mod (h * k) = 0 -> a mod h = 0.
Proof. intros Hh Hk H. apply Z.mod_divide in H; [|lia]. destruct H as [q ->]. replace (q * (h * k)) with ((q * k) * h) by lia. apply Z.mod_mul. lia. Qed.
Theorem corners_in_grid lat lon ps x y : (qz (-75) <= lat < qz 85)%Q -> (qz (-180) <= lon < qz 540)%Q -> cell lat lon = (ps, x, y) ->
  forall p, In p ps -> in_grid (fst p) (snd p).
Proof.
  intros [L1 L2] [G1 G2] Ec. destruct (lon_range lon G1 G2) as [R1 R2].
  assert (NR : forall b h, -180 <= b < 180 -> b mod h = 0 -> (h = 5 \/ h = 10 \/ h = 90) ->
     -180 <= norm b <= 180 - h /\ norm b mod h = 0 /\ -180 <= norm (b + h) <= 180 - h /\ norm (b + h) mod h = 0).
  { intros b h Hb Hm Hh. assert (h <> 0) by lia. apply Z.mod_divide in Hm; [|assumption]. destruct Hm as [q ->]. unfold norm.
    destruct (Z.eqb_spec (q * h) 180); [lia|]. rewrite Z.mod_mul by assumption.
    destruct (Z.eqb_spec (q * h + h) 180).
    - split; [nia|]. split; [reflexivity|]. split; [lia|]. destruct Hh as [-> | [-> | ->]]; reflexivity.
    - split; [destruct Hh as [-> | [-> | ->]]; lia|]. split; [reflexivity|]. split; [destruct Hh as [-> | [-> | ->]]; lia|].
      replace (q * h + h) with ((q + 1) * h) by lia. apply Z.mod_mul. assumption. }
  destruct (Qlt_le_dec lat (qz 75)) as [L3|L3].
  - destruct (mid_cell lat lon ps x y L1 L3 Ec) as (a & b & h & Hh & -> & [B1 B2] & [A1 A2] & _ & _ & Ma & Mb & Hc).
    assert (Rb : -180 <= b < 180).
    { assert (b < 180) by (apply zlt; lra). assert (-180 < b + h) by (apply zlt_add; lra).
      apply Z.mod_divide in Mb; [|lia]. destruct Mb as [q ->]. destruct Hh as [-> | ->]; lia. }
    destruct (NR b h Rb Mb ltac:(lia)) as (N1 & N2 & N3 & N4).
    assert (M5 : norm b mod 5 = 0 /\ norm (b + h) mod 5 = 0).
    { destruct Hh as [-> | ->]; [auto|]. split; apply (mod_of _ 5 2); try lia; assumption. }
    destruct M5 as [M5 M5'].
    destruct Hc as [(-> & C1 & C2)|(-> & Ma10 & C)].
    + assert (a < 55) by (apply zlt; lra). assert (-55 < a + 5) by (apply zlt_add; lra).
      apply Z.mod_divide in Ma; [|lia]. destruct Ma as [q ->].
      assert (Q : forall k, (q * 5 + k * 5) mod 5 = 0) by (intros k; replace (q * 5 + k * 5) with ((q + k) * 5) by lia; apply Z.mod_mul; lia).
      pose proof (Q 0) as Q0. pose proof (Q 1) as Q1. rewrite Z.mul_0_l, Z.add_0_r in Q0. rewrite Z.mul_1_l in Q1.
      intros p Hp. unfold in_grid. cbn [In] in Hp. destruct Hp as [<-|[<-|[<-|[<-|[]]]]]; cbn [fst snd]; (split; [lia|]); (split; [assumption|]); left; (split; [lia|assumption]).
    + assert (Ra : a = -75 \/ a = -65 \/ a = 55 \/ a = 65).
      { assert (a < 75) by (apply zlt; lra). assert (-75 < a + 10) by (apply zlt_add; lra).
        assert (a < -55 \/ 55 < a + 10) by (destruct C; [left; apply zlt; lra|right; apply zlt_add; lra]). clear -Ma10 H H0 H1.
        pose proof (Z.div_mod a 10 ltac:(lia)). lia. }
      intros p Hp. unfold in_grid. cbn [In] in Hp. destruct Hp as [<-|[<-|[<-|[<-|[]]]]]; cbn [fst snd]; (split; [lia|]); (split; [assumption|]);
        destruct Ra as [-> | [-> | [-> | ->]]]; first [right; left; split; [lia|assumption] | left; split; [lia|reflexivity]].
  - unfold cell in Ec. fold (lon' lon) in Ec. set (l := lon' lon) in *. clearbody l.
    assert (F0 : qlt lat (qz 55) = false).
    { unfold qlt. assert (K : (qz 55 <= lat)%Q) by (assert (c : (qz 55 <= qz 75)%Q) by (vm_compute; discriminate); lra). now rewrite (proj2 (Qle_bool_iff _ _) K). }
    assert (F1 : Qle_bool (qz 75) lat = true) by now apply Qle_bool_iff.
    assert (F2 : qlt lat (qz 85) = true).
    { unfold qlt. rewrite negb_true_iff. destruct (Qle_bool (qz 85) lat) eqn:K; [|reflexivity]. apply Qle_bool_iff in K. exfalso. lra. }
    rewrite F0, F1, F2, andb_false_r in Ec. cbn [andb] in Ec. injection Ec as <- _ _.
    assert (Ea : fdiv (lat - qz 5) 10 + 5 = 75).
    { destruct (fdiv_bounds (lat - qz 5) 10 ltac:(lia)) as [P Q]. destruct (fdiv_mult (lat - qz 5) 10) as [k Hk]. rewrite Hk in *.
      assert (k * 10 < 80) by (apply zlt; unfold qz in *; assert (c : (inject_Z 80 == inject_Z 85 - inject_Z 5)%Q) by reflexivity; lra).
      assert (70 < k * 10 + 10) by (apply zlt_add; unfold qz in *; assert (c : (inject_Z 70 == inject_Z 75 - inject_Z 5)%Q) by reflexivity; lra). lia. }
    rewrite Ea.
    assert (D : forall h, 0 < h -> (h = 10 \/ h = 90) -> -180 <= fdiv l h < 180 /\ fdiv l h mod h = 0).
    { intros h Hh Hd. destruct (fdiv_bounds l h Hh) as [P Q]. destruct (fdiv_mult l h) as [k Hk]. rewrite Hk in *.
      assert (k * h < 180) by (apply zlt; lra). assert (-180 < k * h + h) by (apply zlt_add; lra).
      split; [|apply Z.mod_mul; lia]. split; [|lia]. destruct Hd as [-> | ->]; lia. }
    destruct (D 10 ltac:(lia) ltac:(lia)) as [D1 D2]. destruct (D 90 ltac:(lia) ltac:(lia)) as [D3 D4].
    destruct (NR _ 10 D1 D2 ltac:(lia)) as (N1 & N2 & N3 & N4). destruct (NR _ 90 D3 D4 ltac:(lia)) as (K1 & K2 & K3 & K4).
    assert (T : forall z k, z mod (5 * k) = 0 -> 0 < k -> z mod 5 = 0) by (intros; eapply mod_of; [lia| |eassumption]; lia).
    intros p Hp. unfold in_grid. cbn [In map fst snd] in Hp. change wrap180 with norm in Hp. destruct Hp as [<-|[<-|[<-|[<-|[]]]]]; cbn [fst snd].
    + split; [lia|]. split; [apply (T _ 2); [exact N2|lia]|]. right; left. split; [lia|assumption].
    + split; [lia|]. split; [apply (T _ 18); [exact K2|lia]|]. right; right; left. split; [reflexivity|assumption].
    + split; [lia|]. split; [apply (T _ 2); [exact N4|lia]|]. right; left. split; [lia|assumption].
    + split; [lia|]. split; [apply (T _ 18); [exact K4|lia]|]. right; right; left. split; [reflexivity|assumption].
Qed.
