(** The ionosphere messages have the effect stated in MdcSpec.v; position dependent functions. *)
From Coq Require Import Reals Lra.
From Verif Require Import SatModel SatSpec SatProofs CssrState CssrFacts MdcModel MdcSpec Base BaseFacts.
From Coq Require Import ZifyBool ZifyNat.
Notation length := List.length.
Open Scope Z_scope.

Ltac pl := rewrite ?app_length, ?bitsof_length in *; cbn [length] in *.
Ltac gx :=
  match goal with
  | A : At ?m _ (bitsof ?n ?v) |- context [getu ?m ?j ?n] =>
      rewrite (getu_bits m j n v) by first [ (eapply At_pos; [exact A|pl; lia]) | assumption ]
  | A : At ?m _ (bitsof ?n ?v) |- context [gets ?m ?j ?n] =>
      rewrite (gets_bits m j n v) by first [ (eapply At_pos; [exact A|pl; lia]) | assumption | lia ]
  end; cbn [bind].

(* ---------- coverage ---------- *)
Lemma areas_ok msg : forall l i d, Forall area_ok l -> At msg i (flat_map area_bits l) ->
  mt1_areas (length l) msg i d = Some (fold_left (fun d e => zset (fst e) (snd e) d) l d, (i + length (flat_map area_bits l))%nat).
Proof.
  induction l as [|[a p] l IH]; intros i d Hok A.
  - cbn. now rewrite Nat.add_0_r.
  - inversion Hok as [|? ? [H1 H2] H3]; subst. cbn [flat_map] in A. cbn [fst snd] in *.
    apply At_app in A as [A1 A2]. unfold area_bits in A1. cbn [fst snd] in A1. cbn [length mt1_areas].
    cbn [flat_map]. rewrite app_length, Nat.add_assoc.
    assert (L : length (area_bits (a, p)) = 45%nat) by (unfold area_bits; cbn [fst snd]; destruct p; pl; lia).
    rewrite L in *. apply At_app in A1 as [A1 A3]. rewrite bitsof_length in A3.
    destruct p as [x y z w|x y z]; apply At_app in A3 as [As A3]; at_split.
    + destruct H2 as (K1 & K2 & K3 & K4). gx.
      change (getu msg (i + 5) 1) with (getu msg (i + 5) (length [false])). rewrite (getu_at _ _ _ As). cbn [bind bval Z.b2z Z.mul Z.add Z.eqb].
      repeat gx. replace (i + 6 + 39)%nat with (i + 45)%nat by lia. now rewrite IH.
    + destruct H2 as (K1 & K2 & K3). gx.
      change (getu msg (i + 5) 1) with (getu msg (i + 5) (length [true])). rewrite (getu_at _ _ _ As). cbn [bind bval Z.b2z Z.mul Z.add Z.eqb].
      repeat gx. replace (i + 6 + 39)%nat with (i + 45)%nat by lia. now rewrite IH.
Qed.
Lemma fold_last l : forall d area, zget area (fold_left (fun d e => zset (fst e) (snd e) d) l d) =
  match last_of l area with Some p => Some p | None => zget area d end.
Proof.
  induction l as [|[a p] l IH]; intros d area; [reflexivity|]. cbn [fold_left fst snd last_of]. rewrite IH.
  destruct (last_of l area); [reflexivity|]. destruct (a =? area) eqn:E.
  - apply Z.eqb_eq in E as ->. apply zget_zset_same.
  - apply Z.eqb_neq in E. now apply zget_zset_other.
Qed.
Theorem area_message s msg i m : amsg_ok m -> At msg i (amsg_bits m) ->
  exists s', decode_area s msg i = Some (s', (i + length (amsg_bits m))%nat) /\ area_effect m s s'.
Proof.
  intros (H1 & H2 & H3 & H4 & H5 & H6 & H7 & H8 & H9) A. unfold amsg_bits in *. at_split. unfold decode_area.
  assert (H10 : 0 <= Z.of_nat (length (a_list m)) < 2 ^ Z.of_nat 5) by (change (2 ^ Z.of_nat 5) with 32; lia).
  repeat gx. rewrite Nat2Z.id.
  rewrite (areas_ok msg (a_list m) _ _ H9) by (eapply At_pos; [exact A|pl; lia]). cbn [bind].
  eexists. split; [f_equal; f_equal; pl; lia|].
  split; [|split; [|split; [reflexivity|split; [reflexivity|split; [|split; [|auto]]]]]]; cbn [m_tow0].
  - pose proof (Z.mod_pos_bound (a_tow m) 3600). pose proof (Z.div_mod (a_tow m) 3600). lia.
  - exists (a_tow m / 3600). lia.
  - intros area. unfold shape_of at 1. cbn [m_pnt]. rewrite zget_zset_same, fold_last.
    unfold shape_of. destruct (last_of (a_list m) area); [reflexivity|]. destruct (zget (a_reg m) (m_pnt s)); reflexivity.
  - intros reg area N. unfold shape_of at 1. cbn [m_pnt]. rewrite zget_zset_other by congruence. reflexivity.
Qed.

(* ---------- corrections ---------- *)
Lemma sat_item ty msg i e : uns 2 ty -> sent_ok ty e -> At msg i (sent_bits ty e) ->
  mt2_sat ty msg i = Some (e_prn e, e_q e, coefs e, (i + length (sent_bits ty e))%nat).
Proof.
  intros Ht (H1 & H2 & H3 & H4 & H5 & H6 & H7 & H8 & Z1 & Z2 & Z3) A. unfold sent_bits in *. unfold mt2_sat, coefs.
  assert (T : ty = 0 \/ ty = 1 \/ ty = 2 \/ ty = 3) by (unfold uns in Ht; cbn in Ht; lia).
  destruct T as [->|[->|[->| ->]]]; cbn [Z.leb Z.compare Pos.compare Pos.compare_cont Z.gtb] in *; at_split; repeat gx;
    rewrite ?(proj1 (Z1 ltac:(lia))), ?(proj2 (Z1 ltac:(lia))), ?(Z2 ltac:(lia)), ?(proj1 (Z3 ltac:(lia))), ?(proj2 (Z3 ltac:(lia)));
    (apply f_equal; apply f_equal; pl; lia).
Qed.

Definition put1 (ty : Z) (a : acc2) (sat : Z) (e : sent) : acc2 :=
  let '(qi, st, sats, ci) := a in (zset sat (e_q e) qi, zset sat ty st, sats ++ [sat], zset sat (coefs e) ci).
Definition satnr (ge : gnss * sent) : Z := prn2sat (fst ge) (prn_of ge).
Definition putall (ty : Z) (l : list (gnss * sent)) (a : acc2) : acc2 :=
  fold_left (fun a ge => put1 ty a (satnr ge) (snd ge)) l a.
Definition enc (ty : Z) (l : list (gnss * sent)) : bits := flat_map (fun ge => sent_bits ty (snd ge)) l.
Lemma sats_group sys ty msg : uns 2 ty -> forall l i a, Forall (sent_ok ty) l -> At msg i (enc ty (map (fun e => (sys, e)) l)) ->
  mt2_sats sys ty (length l) msg i a =
    Some (putall ty (map (fun e => (sys, e)) l) a, (i + length (enc ty (map (fun e => (sys, e)) l)))%nat).
Proof.
  intros Ht. induction l as [|e l IH]; intros i a Hok A; [cbn; now rewrite Nat.add_0_r|].
  inversion Hok as [|? ? H1 H2]; subst. cbn [map enc flat_map snd] in A. apply At_app in A as [A1 A2].
  cbn [length mt2_sats]. rewrite (sat_item ty msg i e Ht H1 A1). cbn [bind].
  destruct a as [[[qi st] sats] ci]. rewrite IH; [|assumption|assumption].
  cbn [map enc flat_map snd]. rewrite app_length, Nat.add_assoc. do 2 f_equal.
  unfold putall. cbn [fold_left snd put1]. unfold satnr, prn_of. cbn [fst snd]. destruct sys; try reflexivity.
  now rewrite Z.add_comm.
Qed.
Lemma sats_all ty msg : uns 2 ty -> forall gs i a, Forall (fun g => Forall (sent_ok ty) (snd g)) gs ->
  At msg i (enc ty (flat_map (fun g => map (fun e => (fst g, e)) (snd g)) gs)) ->
  mt2_sys (map (fun g => (fst g, length (snd g))) gs) ty msg i a =
    Some (putall ty (flat_map (fun g => map (fun e => (fst g, e)) (snd g)) gs) a,
          (i + length (enc ty (flat_map (fun g => map (fun e => (fst g, e)) (snd g)) gs)))%nat).
Proof.
  intros Ht. induction gs as [|[sys l] gs IH]; intros i a Hok A; [cbn; now rewrite Nat.add_0_r|].
  inversion Hok as [|? ? H1 H2]; subst. cbn [flat_map fst snd map] in *. unfold enc in A. rewrite flat_map_app in A.
  apply At_app in A as [A1 A2]. cbn [mt2_sys]. rewrite (sats_group sys ty msg Ht l i a H1 A1). cbn [bind].
  rewrite IH by assumption. unfold putall, enc. now rewrite fold_left_app, flat_map_app, app_length, Nat.add_assoc.
Qed.

Lemma satnr_inj a b : owns (fst a) (prn_of a) -> owns (fst b) (prn_of b) -> satnr a = satnr b ->
  (fst a, prn_of a) = (fst b, prn_of b).
Proof.
  intros Ha Hb E. unfold satnr in E. rewrite <- (proj1 (sat2prn_prn2sat _ _ Ha)), <- (proj1 (sat2prn_prn2sat _ _ Hb)).
  now rewrite E.
Qed.
Lemma putall_sats ty l : forall a, snd (fst (putall ty l a)) = snd (fst a) ++ map satnr l.
Proof.
  induction l as [|ge l IH]; intros a; cbn [putall fold_left map]; [now rewrite app_nil_r|].
  fold (putall ty l (put1 ty a (satnr ge) (snd ge))). rewrite IH. destruct a as [[[qi st] sats] ci]. cbn.
  now rewrite <- app_assoc.
Qed.
Lemma putall_keep ty l : forall a sat, ~ In sat (map satnr l) ->
  let '(qi, st, _, ci) := putall ty l a in let '(qi0, st0, _, ci0) := a in
  zget sat ci = zget sat ci0 /\ zget sat qi = zget sat qi0 /\ zget sat st = zget sat st0.
Proof.
  induction l as [|ge l IH]; intros a sat N.
  - destruct a as [[[qi st] sats] ci]. cbn. auto.
  - cbn [map] in N. assert (N1 : satnr ge <> sat) by (intros E; apply N; left; exact E).
    assert (N2 : ~ In sat (map satnr l)) by (intros H; apply N; now right).
    specialize (IH (put1 ty a (satnr ge) (snd ge)) sat N2). unfold putall in *. cbn [fold_left].
    destruct (fold_left _ l _) as [[[qi st] sats] ci]. destruct a as [[[qi0 st0] sats0] ci0]. cbn in IH.
    rewrite !zget_zset_other in IH by assumption. exact IH.
Qed.
Lemma putall_get ty l : forall a, NoDup (map satnr l) ->
  let '(qi, st, _, ci) := putall ty l a in
  Forall2 (fun sat ge => zget sat ci = Some (coefs (snd ge)) /\ zget sat qi = Some (e_q (snd ge)) /\
                         zget sat st = Some ty) (map satnr l) l.
Proof.
  induction l as [|ge l IH]; intros a N.
  - destruct a as [[[qi st] sats] ci]. cbn. constructor.
  - cbn [map] in N. inversion N as [|? ? N1 N2]; subst.
    specialize (IH (put1 ty a (satnr ge) (snd ge)) N2).
    pose proof (putall_keep ty l (put1 ty a (satnr ge) (snd ge)) (satnr ge) N1) as K.
    unfold putall in *. cbn [fold_left map].
    destruct (fold_left _ l _) as [[[qi st] sats] ci]. constructor; [|exact IH].
    destruct a as [[[qi0 st0] sats0] ci0]. cbn in K. rewrite !zget_zset_same in K. exact K.
Qed.
Lemma NoDup_satnr l : (forall ge, In ge l -> owns (fst ge) (prn_of ge)) -> NoDup (map (fun ge => (fst ge, prn_of ge)) l) ->
  NoDup (map satnr l).
Proof.
  induction l as [|ge l IH]; intros Ho N; cbn [map] in *; [constructor|].
  inversion N as [|? ? N1 N2]; subst. constructor; [|apply IH; auto using in_cons].
  intros H. apply in_map_iff in H as (b & E & Hb). apply N1. apply in_map_iff. exists b. split; [|assumption].
  apply satnr_inj; auto using in_eq, in_cons.
Qed.

Lemma upd_nth {A} (f : A -> A) : forall n l k, nth_error (upd n f l) k =
  if (k =? n)%nat then option_map f (nth_error l n) else nth_error l k.
Proof.
  induction n as [|n IH]; intros [|x l] [|k]; cbn; try reflexivity.
  - now destruct (k =? n)%nat.
  - apply IH.
Qed.
Lemma upd_len {A} (f : A -> A) : forall n l, length (upd n f l) = length l.
Proof. induction n as [|n IH]; intros [|x l]; cbn; auto. Qed.

Lemma inet_nonneg reg area : 0 <= reg -> 0 <= area -> area <= get_inet reg area <= 38 + area.
Proof.
  intros Hr Ha. unfold get_inet. replace ((reg <? 0) || (area <? 0)) with false by lia.
  unfold inet_sum, narea_t. repeat match goal with |- context [if ?b then _ else _] => destruct b end; lia.
Qed.

Theorem corr_message s msg i m : (70 <= length (m_lc s))%nat -> cmsg_ok m -> cmsg_sats m -> At msg i (cmsg_bits m) ->
  exists s', decode_corr2 s msg i = Some (s', (i + length (cmsg_bits m))%nat) /\
             corr_effect m (Z.to_nat (get_inet (c_reg m) (c_area m))) s s'.
Proof.
  intros Hlen (H1 & H2 & H3 & H4 & H5 & H6 & H7 & H8) (S1 & S2) A. unfold cmsg_bits in *.
  assert (G : forall g, In g (c_groups m) -> 0 <= Z.of_nat (length (snd g)) < 2 ^ Z.of_nat 5)
    by (intros g Hg; apply H8 in Hg as [Hg _]; change (2 ^ Z.of_nat 5) with 32; lia).
  assert (F : Forall (fun g => Forall (sent_ok (c_type m)) (snd g)) (c_groups m))
    by (apply Forall_forall; intros g Hg; now apply H8).
  do 7 (apply At_app in A; let B := fresh "B" in destruct A as [B A]). apply At_app in A as [C A].
  unfold c_groups in C, G. cbn [flat_map snd app] in C. rewrite app_nil_r in C.
  assert (G0 := G (GPS, c_gps m) ltac:(cbn; auto)). assert (G1 := G (GLO, c_glo m) ltac:(cbn; auto)).
  assert (G2 := G (GAL, c_gal m) ltac:(cbn; auto)). assert (G3 := G (BDS, c_bds m) ltac:(cbn; auto 6)).
  assert (G4 := G (QZS, c_qzs m) ltac:(cbn; auto 6)). cbn [snd] in *. clear G.
  at_split. unfold decode_corr2. repeat gx.
  pose proof (inet_nonneg (c_reg m) (c_area m) (proj1 H5) (proj1 H6)) as Hi.
  assert (Hn : (Z.to_nat (get_inet (c_reg m) (c_area m)) < length (m_lc s))%nat) by (unfold uns in *; lia).
  destruct (nth_error (m_lc s) (Z.to_nat (get_inet (c_reg m) (c_area m)))) as [lc0|] eqn:E0;
    [|apply nth_error_None in E0; lia]. cbn [bind].
  replace (combine sys_t (map Z.to_nat _)) with (map (fun g => (fst g, length (snd g))) (c_groups m))
    by (unfold c_groups, sys_t; cbn [map combine fst snd]; now rewrite !Nat2Z.id).
  rewrite (sats_all (c_type m) msg H7 (c_groups m) _ _ F)
    by (fold (c_all m); unfold enc; eapply At_pos; [exact A|cbn [flat_map snd app c_groups]; pl; lia]).
  cbn [bind]. fold (c_all m).
  pose proof (putall_sats (c_type m) (c_all m) ([], [], [], [])) as P1.
  pose proof (putall_get (c_type m) (c_all m) ([], [], [], []) (NoDup_satnr _ S1 S2)) as P2.
  destruct (putall _ _ _) as [[[qi st] sats] ci]. cbn [fst snd app] in P1. subst sats.
  eexists. split.
  { f_equal. f_equal. unfold enc. cbn [flat_map snd app c_groups]. pl. lia. }
  unfold corr_effect. cbn [m_reg m_area m_week m_tow0 m_alrt m_pnt m_lc].
  do 6 (split; [reflexivity|]). split; [apply upd_len|]. split.
  { intros k Hk. rewrite upd_nth. apply Nat.eqb_neq in Hk. now rewrite Hk. }
  rewrite upd_nth, Nat.eqb_refl, E0. cbn [option_map]. eexists. split; [reflexivity|]. cbn.
  split.
  { rewrite map_length. unfold c_all, c_groups. cbn [flat_map fst snd]. rewrite !app_length, !map_length. cbn [length]. lia. }
  split; [|split; [exact P2|auto]].
  rewrite map_map. apply map_ext_in. intros ge Hge. unfold satnr. exact (proj1 (sat2prn_prn2sat _ _ (S1 ge Hge))).
Qed.

(* ---------- network indices ---------- *)
Lemma inet_range reg area : known_area reg area -> 1 <= get_inet reg area <= 38.
Proof.
  unfold known_area, region_areas, get_inet. intros H.
  repeat match type of H with context [if ?b then _ else _] => destruct b eqn:?; [|] end;
  try lia; match goal with E : (reg =? _) = true |- _ => apply Z.eqb_eq in E as -> end;
  replace ((_ <? 0) || (area <? 0)) with false by lia; cbn [inet_sum narea_t Z.geb Z.compare Pos.compare Pos.compare_cont]; lia.
Qed.
Lemma inet_inj reg area reg' area' : known_area reg area -> known_area reg' area' ->
  get_inet reg area = get_inet reg' area' -> reg = reg' /\ area = area'.
Proof.
  unfold known_area, region_areas, get_inet. intros H H'.
  repeat match type of H with context [if ?b then _ else _] => destruct b eqn:?; [|] end; try lia;
  match goal with E : (reg =? _) = true |- _ => apply Z.eqb_eq in E as -> end;
  repeat match type of H' with context [if ?b then _ else _] => destruct b eqn:?; [|] end; try lia;
  match goal with E : (reg' =? _) = true |- _ => apply Z.eqb_eq in E as -> end;
  replace ((_ <? 0) || (area <? 0)) with false by lia; replace ((_ <? 0) || (area' <? 0)) with false by lia;
  cbn [inet_sum narea_t Z.geb Z.compare Pos.compare Pos.compare_cont]; lia.
Qed.

(* ---------- positions ---------- *)
Open Scope R_scope.
Lemma inside_rect a b c d lat lon : inside (Rect a b c d) lat lon = true <-> in_rect a b c d lat lon.
Proof.
  unfold inside, in_rect.
  destruct (Rle_dec (IZR a / 10 - IZR c / 10) lat), (Rle_dec lat (IZR a / 10 + IZR c / 10)),
    (Rle_dec (IZR b / 10 - IZR d / 10) lon), (Rle_dec lon (IZR b / 10 + IZR d / 10)); cbn [andb];
  (split; [intros H; try discriminate H; split; apply Rabs_le; lra |
           intros [H1 H2]; try reflexivity; exfalso;
           pose proof (Rle_abs (lat - IZR a / 10)); pose proof (Rle_abs (- (lat - IZR a / 10))) as X1; rewrite Rabs_Ropp in X1;
           pose proof (Rle_abs (lon - IZR b / 10)); pose proof (Rle_abs (- (lon - IZR b / 10))) as X2; rewrite Rabs_Ropp in X2; lra]).
Qed.
Lemma find_area_some d lat lon a : find_area d lat lon = Some a -> exists p, In (a, p) d /\ inside p lat lon = true.
Proof.
  induction d as [|[a' p] d IH]; cbn; [discriminate|]. destruct (inside p lat lon) eqn:E.
  - intros [= <-]. eauto.
  - intros H. apply IH in H as (q & Hq & Ep). eauto.
Qed.
Lemma find_area_none d lat lon : find_area d lat lon = None -> forall a p, In (a, p) d -> inside p lat lon = false.
Proof.
  induction d as [|[a' p'] d IH]; cbn; [contradiction|]. destruct (inside p' lat lon) eqn:E; [discriminate|].
  intros H a p [[= <- <-]|Hin]; [assumption|]. eapply IH; eassumption.
Qed.
Lemma find_loop_spec lat lon : forall (pnt : dict Z (dict Z ainfo)) (ra : Z * Z), let '(reg, area) := fold_left (fun ra rd =>
    match find_area (snd rd) lat lon with Some a => (fst rd, a) | None => ra end) pnt ra in
  ((exists d p, In (reg, d) pnt /\ In (area, p) d /\ inside p lat lon = true) \/
   ((reg, area) = ra /\ forall r d a p, In (r, d) pnt -> In (a, p) d -> inside p lat lon = false)).
Proof.
  induction pnt as [|[r d] pnt IH]; intros ra; cbn [fold_left].
  - destruct ra as [reg area]. right. split; [reflexivity|]. contradiction.
  - cbn [fst snd]. destruct (find_area d lat lon) as [a|] eqn:E.
    + specialize (IH (r, a)). destruct (fold_left _ pnt (r, a)) as [reg area].
      destruct IH as [(d' & p & H1 & H2 & H3)|[[= -> ->] _]].
      * left. exists d', p. auto using in_cons.
      * left. apply find_area_some in E as (p & H1 & H2). exists d, p. auto using in_eq.
    + specialize (IH ra). destruct (fold_left _ pnt ra) as [reg area].
      destruct IH as [(d' & p & H1 & H2 & H3)|[Hra H]].
      * left. exists d', p. auto using in_cons.
      * right. split; [assumption|]. intros r' d' a p [[= <- <-]|Hin] Hp; [eapply find_area_none; eassumption|eauto].
Qed.

Lemma stec1_tec e dlat dlon : stec1 dlat dlon (coefs e) = tec e dlat dlon.
Proof. unfold stec1, tec, coefs. cbn [nth]. field. Qed.
Lemma get_stec_all s inet lc dlat dlon es : nth_error (m_lc s) inet = Some lc ->
  Forall2 (fun sat ge => zget sat (l_ci lc) = Some (coefs (snd (ge : gnss * sent)))) (l_sat lc) es ->
  get_stec s inet dlat dlon = Some (map (fun ge => tec (snd ge) dlat dlon) es).
Proof.
  intros E F. unfold get_stec. rewrite E. cbn [bind]. induction F as [|sat ge ss gs H F IH]; [reflexivity|].
  cbn [fold_right map]. rewrite IH. cbn [bind]. rewrite H. cbn [bind]. now rewrite stec1_tec.
Qed.

(* ---------- every history ---------- *)
Open Scope Z_scope.
Definition nodupk {V} (d : dict Z V) : Prop := NoDup (map fst d) /\ (forall k v, In (k, v) d -> 0 <= k).
Lemma keys_zset {V} k (v : V) d k' : In k' (map fst (zset k v d)) -> k' = k \/ In k' (map fst d).
Proof.
  induction d as [|[a b] d IH]; cbn.
  - intros [H|[]]; auto.
  - destruct (a =? k) eqn:E; cbn.
    + intros [H|H]; auto.
    + intros [H|H]; auto. apply IH in H as [H|H]; auto.
Qed.
Lemma in_zset {V} k (v : V) d k' v' : In (k', v') (zset k v d) -> (k' = k /\ v' = v) \/ In (k', v') d.
Proof.
  induction d as [|[a b] d IH]; cbn.
  - intros [[= -> ->]|[]]; auto.
  - destruct (a =? k) eqn:E; cbn.
    + intros [H|H]; auto. injection H as <- <-. apply Z.eqb_eq in E. auto.
    + intros [H|H]; auto. apply IH in H as [H|H]; auto.
Qed.
Lemma nodupk_zset {V} k (v : V) d : 0 <= k -> nodupk d -> nodupk (zset k v d).
Proof.
  intros Hk [N P]. split.
  - clear P. induction d as [|[a b] d IH]; cbn in *; [repeat constructor; auto|].
    destruct (a =? k) eqn:E; cbn; [exact N|]. inversion N as [|? ? N1 N2]; subst. constructor; [|auto].
    intros H. apply keys_zset in H as [->|H]; [apply Z.eqb_neq in E; congruence|auto].
  - intros k' v' H. apply in_zset in H as [[-> _]|H]; [assumption|eauto].
Qed.
Lemma in_zget {V} k (v : V) d : nodupk d -> In (k, v) d -> zget k d = Some v.
Proof.
  intros [N _]. induction d as [|[a b] d IH]; cbn in *; [contradiction|]. inversion N as [|? ? N1 N2]; subst.
  intros [[= -> ->]|H]; [now rewrite Z.eqb_refl|].
  destruct (a =? k) eqn:E; [|auto]. apply Z.eqb_eq in E as ->. exfalso. apply N1. apply in_map_iff. now exists (k, v).
Qed.
Lemma zget_in {V} k (v : V) d : zget k d = Some v -> In (k, v) d.
Proof.
  induction d as [|[a b] d IH]; cbn; [discriminate|]. destruct (a =? k) eqn:E; [|auto].
  apply Z.eqb_eq in E as ->. intros [= ->]. auto.
Qed.
Definition wf (s : mst) : Prop :=
  nodupk (m_pnt s) /\ (forall r d, In (r, d) (m_pnt s) -> nodupk d) /\ length (m_lc s) = 72%nat.
(** states of a decoder: created, then any messages and any position queries *)
Inductive history : mst -> Prop :=
| h_new week tow0 : history (mst_new week tow0)
| h_area s msg i s' j : history s -> decode_area s msg i = Some (s', j) -> history s'
| h_corr s msg i s' j : history s -> decode_corr2 s msg i = Some (s', j) -> history s'
| h_find s lat lon : history s -> history (fst (find_grid_index s lat lon)).
Ltac inv_bind H :=
  repeat match type of H with
  | bind ?x _ = Some _ => let E := fresh "E" in destruct x eqn:E; [cbn [bind] in H|discriminate H]
  end.
Lemma areas_wf msg : forall n i d d' j, nodupk d -> mt1_areas n msg i d = Some (d', j) -> nodupk d'.
Proof.
  induction n as [|n IH]; intros i d d' j Hd H; cbn [mt1_areas] in H.
  - now injection H as <- _.
  - inv_bind H. apply getu_range in E. destruct (z0 =? 0); inv_bind H; (eapply IH; [|exact H]; apply nodupk_zset; [lia|assumption]).
Qed.
Lemma history_wf s : history s -> wf s.
Proof.
  induction 1 as [week tow0|s msg i s' j Hs (W1 & W2 & W3) H|s msg i s' j Hs (W1 & W2 & W3) H|s lat lon Hs (W1 & W2 & W3)].
  - split; [|split]; cbn; [split; [constructor|contradiction]|contradiction|reflexivity].
  - unfold decode_area in H. inv_bind H. destruct p as [d k]. injection H as <- <-. unfold wf. cbn [m_pnt m_lc].
    pose proof (getu_range _ _ _ _ E3) as R.
    assert (Nd : nodupk d).
    { eapply areas_wf; [|eassumption]. destruct (zget z3 (m_pnt s)) as [d1|] eqn:Ez.
      - apply zget_in in Ez. exact (W2 _ _ Ez). - split; [constructor|contradiction]. }
    split; [apply nodupk_zset; [lia|assumption]|split; [|assumption]].
    intros r d1 Hin. apply in_zset in Hin as [[-> ->]|Hin]; [assumption|eauto].
  - unfold decode_corr2 in H. inv_bind H. destruct p as [a k]. destruct a as [[[qi st] sats] ci].
    injection H as <- <-. unfold wf. cbn [m_pnt m_lc]. rewrite upd_len. auto.
  - unfold find_grid_index. destruct (find_loop (m_pnt s) lat lon). unfold wf. cbn. auto.
Qed.

Theorem find_ok s lat lon : history s ->
  (forall reg area p, shape_of s reg area = Some p -> exists a b c d, p = Rect a b c d) ->
  let '(s', inet) := find_grid_index s lat lon in
  (inet = -1 /\ get_dpos s' lat lon = Some (0, 0)%R /\
   forall reg area a b c d, shape_of s reg area = Some (Rect a b c d) -> ~ in_rect a b c d lat lon) \/
  (exists reg area a b c d, shape_of s reg area = Some (Rect a b c d) /\ in_rect a b c d lat lon /\
     inet = get_inet reg area /\ inet >= 0 /\ get_dpos s' lat lon = Some (lat - IZR a / 10, lon - IZR b / 10)%R).
Proof.
  intros Hs HR. apply history_wf in Hs as (W1 & W2 & W3). unfold find_grid_index.
  pose proof (find_loop_spec lat lon (m_pnt s) (-1, -1)) as F. fold (find_loop (m_pnt s) lat lon) in F.
  destruct (find_loop (m_pnt s) lat lon) as [reg area]. cbv iota beta.
  destruct F as [(d & p & H1 & H2 & H3)|[[= -> ->] F]].
  - right. pose proof (in_zget _ _ _ W1 H1) as Z1. pose proof (in_zget _ _ _ (W2 _ _ H1) H2) as Z2.
    assert (Sh : shape_of s reg area = Some p) by (unfold shape_of; now rewrite Z1).
    destruct (HR _ _ _ Sh) as (a & b & c & e & ->). exists reg, area, a, b, c, e.
    split; [assumption|]. split; [now apply inside_rect|]. split; [reflexivity|].
    pose proof (proj2 W1 _ _ H1) as R1. pose proof (proj2 (W2 _ _ H1) _ _ H2) as R2.
    split; [pose proof (inet_nonneg reg area R1 R2); lia|].
    unfold get_dpos. cbn [m_reg m_area m_pnt]. replace ((reg <? 0) || (area <? 0)) with false by lia.
    rewrite Z1. cbn [bind]. rewrite Z2. reflexivity.
  - left. split; [reflexivity|]. split; [reflexivity|]. intros reg area a b c d Sh Hin.
    apply inside_rect in Hin. unfold shape_of in Sh. destruct (zget reg (m_pnt s)) as [dd|] eqn:E; [|discriminate].
    rewrite (F _ _ _ _ (zget_in _ _ _ E) (zget_in _ _ _ Sh)) in Hin. discriminate.
Qed.

Theorem corr_stec s msg i m dlat dlon : history s -> cmsg_ok m -> cmsg_sats m -> At msg i (cmsg_bits m) ->
  exists s' j, decode_corr2 s msg i = Some (s', j) /\
    get_stec s' (Z.to_nat (get_inet (c_reg m) (c_area m))) dlat dlon = Some (map (fun ge => tec (snd ge) dlat dlon) (c_all m)).
Proof.
  intros Hs H1 H2 A. apply history_wf in Hs as (W1 & W2 & W3).
  destruct (corr_message s msg i m ltac:(lia) H1 H2 A) as (s' & Hd & _ & _ & _ & _ & _ & _ & _ & _ & lc & L1 & L2 & L3 & L4 & _).
  exists s', (i + length (cmsg_bits m))%nat. split; [assumption|]. eapply get_stec_all; [eassumption|].
  clear -L4. induction L4 as [|x y l l' (Hc & _) F IH]; constructor; auto.
Qed.
