(** Expiry of stored corrections: cssrlib.py:1208-1217. *)
From Verif Require Import Base BaseFacts BitProofs CssrModel CssrSpec CssrFacts CssrCodec CssrStatus CssrUser.
From Coq Require Import ZifyBool ZifyNat.
Open Scope Z_scope.

(** reference time of a correction of a satellite (global corrections) *)
Definition t0_of (s : cst) (sat ct : Z) : option gtime :=
  match zget sat (l_t0 (lcat s 0)) with Some d => zget ct d | None => None end.

Definition with_corr (dc : dict Z (option Z)) (di : dict Z Z) (dor : dict Z orb3) : cst -> cst :=
  updlc 0 (fun l => set_l_dclk (Some dc) (set_l_iode (Some di) (set_l_dorb (Some dor) l))).
Lemma lcat_with dc di dor s : (0 < length (s_lc s))%nat ->
  lcat (with_corr dc di dor s) 0 =
  set_l_dclk (Some dc) (set_l_iode (Some di) (set_l_dorb (Some dor) (lcat s 0))).
Proof. intros H. unfold with_corr. rewrite lcat_updlc by (cbn; lia). reflexivity. Qed.
Lemma with_with dc di dor a b e s : with_corr dc di dor (with_corr a b e s) = with_corr dc di dor s.
Proof. unfold with_corr. rewrite updlc_updlc. reflexivity. Qed.

Lemma valid_loop U tc tm time s : (0 < length (s_lc s))%nat -> forall l dc di dor,
  (forall sat, In sat l -> exists a b, t0_of s sat tCLOCK = Some a /\ t0_of s sat tORBIT = Some b) ->
  exists dc' di' dor',
  eachM l (fun sat (_ : unit) =>
    t0 <~ ask (fun s => zget sat (l_t0 (lcat s 0))) ;; t0 <~ lift t0 ;;
    t1 <~ lift (zget tCLOCK t0) ;;
    (if timediff U time t1 >? tc then
       d <~ ask (fun s => l_dclk (lcat s 0)) ;; d <~ lift d ;;
       modlc 0 (set_l_dclk (Some (zset sat (Some 0) d)))
     else ret tt) ;;;
    t2 <~ lift (zget tORBIT t0) ;;
    if timediff U time t2 >? tm then
      d <~ ask (fun s => l_iode (lcat s 0)) ;; d <~ lift d ;;
      modlc 0 (set_l_iode (Some (zset sat (-1) d))) ;;;
      d <~ ask (fun s => l_dorb (lcat s 0)) ;; d <~ lift d ;;
      modlc 0 (set_l_dorb (Some (zset sat (Some 0, Some 0, Some 0) d)))
    else ret tt) tt (with_corr dc di dor s) = (with_corr dc' di' dor' s, Some tt) /\
  (forall sat, ~ In sat l -> zget sat dc' = zget sat dc /\ zget sat di' = zget sat di /\ zget sat dor' = zget sat dor) /\
  (forall sat a b, In sat l -> t0_of s sat tCLOCK = Some a -> t0_of s sat tORBIT = Some b ->
     zget sat dc' = (if timediff U time a >? tc then Some (Some 0) else zget sat dc) /\
     zget sat di' = (if timediff U time b >? tm then Some (-1) else zget sat di) /\
     zget sat dor' = (if timediff U time b >? tm then Some (Some 0, Some 0, Some 0) else zget sat dor)).
Proof.
  intros Hl l. induction l as [|x l IH]; intros dc di dor Ht.
  - exists dc, di, dor. repeat split; intros; try reflexivity; destruct H.
  - destruct (Ht x (or_introl eq_refl)) as (a & b & Ea & Eb).
    set (dc1 := if timediff U time a >? tc then zset x (Some 0) dc else dc).
    set (di1 := if timediff U time b >? tm then zset x (-1) di else di).
    set (dor1 := if timediff U time b >? tm then zset x (Some 0, Some 0, Some 0) dor else dor).
    destruct (IH dc1 di1 dor1 (fun sat H => Ht sat (or_intror H))) as (dc' & di' & dor' & H1 & H2 & H3).
    exists dc', di', dor'. split; [|split].
    + cbn [eachM]. rewrite <- H1. clear H1 H2 H3 IH.
      erewrite mbind_ok; [reflexivity|]. rewrite mbind_ask. rewrite lcat_with by assumption. cbn [l_t0 set_l_dclk set_l_iode set_l_dorb].
      unfold t0_of in Ea, Eb. destruct (zget x (l_t0 (lcat s 0))) as [d|] eqn:Ed; [|discriminate].
      rewrite (mbind_lift _ d) by reflexivity. rewrite (mbind_lift _ a) by exact Ea.
      erewrite (mbind_ok _ _ _ (with_corr dc1 di dor s) tt).
      2:{ unfold dc1. destruct (timediff U time a >? tc); [|reflexivity].
          rewrite mbind_ask, lcat_with by assumption. cbn [l_dclk set_l_dclk].
          rewrite (mbind_lift _ dc) by reflexivity. unfold modlc, modify, with_corr. rewrite updlc_updlc. reflexivity. }
      rewrite (mbind_lift _ b) by exact Eb. unfold di1, dor1. destruct (timediff U time b >? tm); [|reflexivity].
      rewrite mbind_ask, lcat_with by assumption. cbn [l_iode set_l_dclk set_l_iode].
      rewrite (mbind_lift _ di) by reflexivity. rewrite mbind_modlc, mbind_ask.
      replace (updlc 0 (set_l_iode (Some (zset x (-1) di))) (with_corr dc1 di dor s)) with (with_corr dc1 (zset x (-1) di) dor s)
        by (unfold with_corr; rewrite updlc_updlc; reflexivity).
      rewrite lcat_with by assumption. cbn [l_dorb set_l_dclk set_l_iode set_l_dorb].
      rewrite (mbind_lift _ dor) by reflexivity. unfold modlc, modify, with_corr. rewrite updlc_updlc. reflexivity.
    + intros sat Hn. cbn in Hn. destruct (H2 sat) as (A & B & C); [tauto|]. rewrite A, B, C. unfold dc1, di1, dor1.
      destruct (timediff U time a >? tc), (timediff U time b >? tm); rewrite ?zget_zset_other by tauto; auto.
    + intros sat a' b' Hin Ha Hb. destruct (in_dec Z.eq_dec sat l) as [Hi|Hi].
      * destruct (H3 sat a' b' Hi Ha Hb) as (A & B & C). rewrite A, B, C. unfold dc1, di1, dor1.
        destruct (Z.eq_dec x sat) as [->|Hx].
        -- rewrite Ea in Ha. rewrite Eb in Hb. injection Ha as <-. injection Hb as <-.
           destruct (timediff U time a >? tc), (timediff U time b >? tm); auto.
        -- destruct (timediff U time a >? tc), (timediff U time b >? tm); rewrite ?zget_zset_other by assumption; auto.
      * destruct Hin as [->|Hin]; [|contradiction]. destruct (H2 sat Hi) as (A & B & C). rewrite A, B, C.
        rewrite Ea in Ha. rewrite Eb in Hb. injection Ha as <-. injection Hb as <-. unfold dc1, di1, dor1.
        destruct (timediff U time a >? tc), (timediff U time b >? tm); rewrite ?zget_zset_same; auto.
Qed.

Lemma updlc_id s : (0 < length (s_lc s))%nat -> forall f, f (lcat s 0) = lcat s 0 -> updlc 0 f s = s.
Proof.
  intros H f E. unfold lcat in E. unfold updlc. destruct s. cbn in *.
  destruct s_lc as [|a l]; [cbn in H; lia|]. cbn in *. now rewrite E.
Qed.

(** Every clock correction of a mask satellite older than [tc] reads 0 and every orbit correction
    older than [tm] reads 0 with issue -1; everything else is as before. *)
Theorem check_validity_exact U tc tm time s dc di dor :
  (0 < length (s_lc s))%nat ->
  l_dclk (lcat s 0) = Some dc -> l_iode (lcat s 0) = Some di -> l_dorb (lcat s 0) = Some dor ->
  (forall sat, In sat (s_sat_n s) -> exists a b, t0_of s sat tCLOCK = Some a /\ t0_of s sat tORBIT = Some b) ->
  exists dc' di' dor',
  check_validity U tc tm time s = (with_corr dc' di' dor' s, Some tt) /\
  (forall sat, ~ In sat (s_sat_n s) -> zget sat dc' = zget sat dc /\ zget sat di' = zget sat di /\ zget sat dor' = zget sat dor) /\
  (forall sat a b, In sat (s_sat_n s) -> t0_of s sat tCLOCK = Some a -> t0_of s sat tORBIT = Some b ->
     zget sat dc' = (if timediff U time a >? tc then Some (Some 0) else zget sat dc) /\
     zget sat di' = (if timediff U time b >? tm then Some (-1) else zget sat di) /\
     zget sat dor' = (if timediff U time b >? tm then Some (Some 0, Some 0, Some 0) else zget sat dor)).
Proof.
  intros Hl H1 H2 H3 Ht.
  destruct (valid_loop U tc tm time s Hl (s_sat_n s) dc di dor Ht) as (dc' & di' & dor' & G1 & G2 & G3).
  exists dc', di', dor'. split; [|split; assumption].
  assert (E : with_corr dc di dor s = s).
  { apply updlc_id; [assumption|]. destruct (lcat s 0). cbn in *. subst. reflexivity. }
  rewrite E in G1. unfold check_validity. rewrite mbind_ask. exact G1.
Qed.

(** exception: a satellite of the mask for which no message carried a reference time *)
Theorem check_validity_raises U tc tm time s sat r : s_sat_n s = sat :: r -> zget sat (l_t0 (lcat s 0)) = None ->
  check_validity U tc tm time s = (s, None).
Proof.
  intros E H. unfold check_validity. rewrite mbind_ask, E. cbn [eachM]. unfold mbind at 1.
  rewrite mbind_ask, H. reflexivity.
Qed.

(** one satellite of the loop *)
Definition vbody (U tc tm : Z) (time : gtime) (sat : Z) : M unit :=
    t0 <~ ask (fun s => zget sat (l_t0 (lcat s 0))) ;; t0 <~ lift t0 ;;
    t1 <~ lift (zget tCLOCK t0) ;;
    (if timediff U time t1 >? tc then
       d <~ ask (fun s => l_dclk (lcat s 0)) ;; d <~ lift d ;;
       modlc 0 (set_l_dclk (Some (zset sat (Some 0) d)))
     else ret tt) ;;;
    t2 <~ lift (zget tORBIT t0) ;;
    if timediff U time t2 >? tm then
      d <~ ask (fun s => l_iode (lcat s 0)) ;; d <~ lift d ;;
      modlc 0 (set_l_iode (Some (zset sat (-1) d))) ;;;
      d <~ ask (fun s => l_dorb (lcat s 0)) ;; d <~ lift d ;;
      modlc 0 (set_l_dorb (Some (zset sat (Some 0, Some 0, Some 0) d)))
    else ret tt.

Lemma vbody_ret U tc tm time x s s' : nets s -> vbody U tc tm time x s = (s', Some tt) ->
  exists a b, t0_of s x tCLOCK = Some a /\ t0_of s x tORBIT = Some b /\
  nets s' /\ l_t0 (lcat s' 0) = l_t0 (lcat s 0) /\
  (forall k, dclk_of s' 0 k = if (k =? x) && (timediff U time a >? tc) then Some (Some 0) else dclk_of s 0 k) /\
  (forall k, iode_of s' 0 k = if (k =? x) && (timediff U time b >? tm) then Some (-1) else iode_of s 0 k) /\
  (forall k, dorb_of s' 0 k = if (k =? x) && (timediff U time b >? tm) then Some (Some 0, Some 0, Some 0) else dorb_of s 0 k).
Proof.
  intros Hn. unfold vbody. rewrite mbind_ask. unfold mbind at 1, lift at 1.
  destruct (zget x (l_t0 (lcat s 0))) as [d|] eqn:Ed; [|discriminate].
  unfold mbind at 1, lift at 1. destruct (zget tCLOCK d) as [a|] eqn:Ea; [|discriminate].
  set (s1 := fst ((if timediff U time a >? tc then
       d <~ ask (fun s => l_dclk (lcat s 0)) ;; d <~ lift d ;;
       modlc 0 (set_l_dclk (Some (zset x (Some 0) d)))
     else ret tt) s)).
  assert (H1 : forall B (f : unit -> M B) r, mbind (if timediff U time a >? tc then
       d <~ ask (fun s => l_dclk (lcat s 0)) ;; d <~ lift d ;;
       modlc 0 (set_l_dclk (Some (zset x (Some 0) d)))
     else ret tt) f s = (fst r, Some (snd r)) -> f tt s1 = (fst r, Some (snd r)) /\
     nets s1 /\ l_t0 (lcat s1 0) = l_t0 (lcat s 0) /\ l_iode (lcat s1 0) = l_iode (lcat s 0) /\ l_dorb (lcat s1 0) = l_dorb (lcat s 0) /\
     (forall k, dclk_of s1 0 k = if (k =? x) && (timediff U time a >? tc) then Some (Some 0) else dclk_of s 0 k)).
  { intros B f r. subst s1. unfold dclk_of. destruct (timediff U time a >? tc).
    - unfold mbind at 1. rewrite mbind_ask. unfold mbind, lift. destruct (l_dclk (lcat s 0)) as [e|] eqn:Ee; [|discriminate].
      unfold modlc, modify. cbn [fst snd]. intros H. split; [exact H|]. split; [now apply nets_updlc|].
      rewrite lcat_eff by (assumption || lia). rewrite Z.eqb_refl. repeat split; auto.
      intros k. cbn. destruct (Z.eqb_spec k x) as [->|]; [apply zget_zset_same|apply zget_zset_other; congruence].
    - unfold mbind at 1, ret. cbn [fst]. intros H. repeat split; auto. intros k. now rewrite andb_false_r. }
  intros H. apply (H1 _ _ (s', tt)) in H as (H & Hn1 & G0 & G1 & G2 & G3). cbn [fst snd] in H. clear H1.
  unfold mbind at 1, lift at 1 in H. destruct (zget tORBIT d) as [b|] eqn:Eb; [|discriminate].
  exists a, b. unfold t0_of. rewrite Ed. split; [exact Ea|]. split; [exact Eb|].
  destruct (timediff U time b >? tm).
  - rewrite mbind_ask in H. unfold mbind at 1, lift at 1 in H. rewrite G1 in H.
    destruct (l_iode (lcat s 0)) as [e|] eqn:Ee; [|discriminate]. rewrite mbind_modlc, mbind_ask in H.
    rewrite lcat_eff in H by (assumption || lia). rewrite Z.eqb_refl in H. cbn [l_dorb set_l_iode] in H. rewrite G2 in H.
    unfold mbind at 1, lift at 1 in H. destruct (l_dorb (lcat s 0)) as [g|] eqn:Eg; [|discriminate].
    unfold modlc, modify in H. injection H as <-.
    assert (Hn2 : nets (updlc 0 (set_l_iode (Some (zset x (-1) e))) s1)) by now apply nets_updlc.
    split; [now apply nets_updlc|]. unfold iode_of, dorb_of, dclk_of. rewrite lcat_eff by (assumption || lia).
    rewrite lcat_eff by (assumption || lia). rewrite Z.eqb_refl, Ee, Eg. cbn. split; [exact G0|].
    split; [exact G3|]. split; intros k; (destruct (Z.eqb_spec k x) as [->|]; [apply zget_zset_same|apply zget_zset_other; congruence]).
  - unfold ret in H. injection H as <-. split; [assumption|]. split; [assumption|]. split; [exact G3|].
    unfold iode_of, dorb_of. rewrite G1, G2. split; intros k; now rewrite andb_false_r.
Qed.

(** whenever check_validity returns: every satellite of the mask had both reference times, expired
    clocks and orbits are zero with issue -1, all other stored corrections are untouched *)
Theorem check_validity_returns U tc tm time s s' : nets s -> check_validity U tc tm time s = (s', Some tt) ->
  (forall k, ~ In k (s_sat_n s) -> dclk_of s' 0 k = dclk_of s 0 k /\ iode_of s' 0 k = iode_of s 0 k /\ dorb_of s' 0 k = dorb_of s 0 k) /\
  (forall k, In k (s_sat_n s) -> exists a b, t0_of s k tCLOCK = Some a /\ t0_of s k tORBIT = Some b /\
     (timediff U time a > tc -> dclk_of s' 0 k = Some (Some 0)) /\
     (timediff U time a <= tc -> dclk_of s' 0 k = dclk_of s 0 k) /\
     (timediff U time b > tm -> iode_of s' 0 k = Some (-1) /\ dorb_of s' 0 k = Some (Some 0, Some 0, Some 0)) /\
     (timediff U time b <= tm -> iode_of s' 0 k = iode_of s 0 k /\ dorb_of s' 0 k = dorb_of s 0 k)).
Proof.
  intros Hn. unfold check_validity. rewrite mbind_ask.
  change (eachM (s_sat_n s) (fun (sat : Z) (_ : unit) => vbody U tc tm time sat) tt s = (s', Some tt) ->
    (forall k, ~ In k (s_sat_n s) -> dclk_of s' 0 k = dclk_of s 0 k /\ iode_of s' 0 k = iode_of s 0 k /\ dorb_of s' 0 k = dorb_of s 0 k) /\
    (forall k, In k (s_sat_n s) -> exists a b, t0_of s k tCLOCK = Some a /\ t0_of s k tORBIT = Some b /\
     (timediff U time a > tc -> dclk_of s' 0 k = Some (Some 0)) /\
     (timediff U time a <= tc -> dclk_of s' 0 k = dclk_of s 0 k) /\
     (timediff U time b > tm -> iode_of s' 0 k = Some (-1) /\ dorb_of s' 0 k = Some (Some 0, Some 0, Some 0)) /\
     (timediff U time b <= tm -> iode_of s' 0 k = iode_of s 0 k /\ dorb_of s' 0 k = dorb_of s 0 k))).
  generalize (s_sat_n s) as l. intros l. revert s Hn. induction l as [|x l IH]; intros s Hn H.
  - cbn in H. unfold ret in H. injection H as <-. split; [auto|intros k []].
  - cbn [eachM] in H. unfold mbind in H at 1. destruct (vbody U tc tm time x s) as [s1 [[]|]] eqn:E1; [|discriminate].
    destruct (vbody_ret U tc tm time x s s1 Hn E1) as (a & b & Ea & Eb & Hn1 & Et & F1 & F2 & F3).
    destruct (IH s1 Hn1 H) as [I1 I2].
    assert (Ht : forall k c, t0_of s1 k c = t0_of s k c) by (intros; unfold t0_of; now rewrite Et).
    split.
    + intros k Hk. cbn in Hk. destruct (I1 k) as (-> & -> & ->); [tauto|]. rewrite F1, F2, F3.
      destruct (Z.eqb_spec k x) as [->|]; [tauto|]. cbn. auto.
    + intros k Hk. destruct (in_dec Z.eq_dec k l) as [Hi|Hi].
      * destruct (I2 k Hi) as (a' & b' & A1 & A2 & A3 & A4 & A5 & A6). rewrite Ht in A1, A2.
        exists a', b'. split; [exact A1|]. split; [exact A2|].
        rewrite F1 in A4. rewrite F2, F3 in A6. destruct (Z.eqb_spec k x) as [->|Hx]; cbn [andb] in *.
        -- rewrite Ea in A1. rewrite Eb in A2. injection A1 as <-. injection A2 as <-.
           split; [exact A3|]. split; [|split; [exact A5|]].
           ++ intros G. rewrite A4 by exact G. replace (timediff U time a >? tc) with false by lia. reflexivity.
           ++ intros G. destruct (A6 G) as [-> ->]. replace (timediff U time b >? tm) with false by lia. auto.
        -- auto.
      * destruct Hk as [->|Hk]; [|contradiction]. destruct (I1 k Hi) as (-> & -> & ->). rewrite F1, F2, F3. rewrite Z.eqb_refl. cbn [andb].
        exists a, b. split; [exact Ea|]. split; [exact Eb|]. split; [|split; [|split]]; intros G.
        -- replace (timediff U time a >? tc) with true by lia. reflexivity.
        -- replace (timediff U time a >? tc) with false by lia. reflexivity.
        -- replace (timediff U time b >? tm) with true by lia. auto.
        -- replace (timediff U time b >? tm) with false by lia. auto.
Qed.
