From Coq Require Import ZArith List Lia Bool ZifyBool ZifyNat.
From Verif Require Import SatModel SatSpec SatProofs CssrState CssrSpec CssrFacts SbasModel SbasSpec.
From Verif Require Import FieldFacts SbasProofs.
Import ListNotations.
Notation length := List.length.
Open Scope Z_scope.

(* ---------- storing one entry ---------- *)
Lemma sval_code v n : sval_sbas v n = code (Z.of_nat n) v.
Proof. reflexivity. Qed.
Lemma oneg_neg o : oneg o = neg o.
Proof. now destruct o. Qed.
Definition frame (s s' : sst) : Prop :=
  ss_sat s' = ss_sat s /\ ss_iodp s' = ss_iodp s /\ ss_hclk s' = ss_hclk s /\ ss_udrei s' = ss_udrei s.
Lemma frame_refl s : frame s s. Proof. repeat split. Qed.
Lemma frame_trans a b c : frame a b -> frame b c -> frame a c.
Proof. unfold frame. intuition congruence. Qed.
Lemma frame_t0 a ct s : frame s (set_t0 a ct s).
Proof. destruct (set_t0_sel a ct s) as (A & B & C & D & _). repeat split; assumption. Qed.
Lemma add_corr slot iod dx dy dz db rx ry rz rb s :
  let e := LE slot iod dx dy dz db (rx, ry, rz, rb) in
  frame s (add_sbas_corr slot iod dx dy dz db rx ry rz rb s) /\
  forall a, long (add_sbas_corr slot iod dx dy dz db rx ry rz rb s) a = if slot2sat slot =? a then Some (ent_val e) else long s a.
Proof.
  intros e. unfold add_sbas_corr. cbv zeta. set (s1 := set_ss_long _ _ _ _ _ _ s).
  assert (F1 : frame s s1) by (unfold s1; destruct s; repeat split).
  destruct (set_t0_sel (slot2sat slot) CT_CLOCK s1) as (_ & _ & _ & _ & L1).
  destruct (set_t0_sel (slot2sat slot) CT_ORBIT (set_t0 (slot2sat slot) CT_CLOCK s1)) as (_ & _ & _ & _ & L2).
  split. { eapply frame_trans; [exact F1|]. eapply frame_trans; apply frame_t0. }
  intros a. rewrite L2, L1. unfold s1, long. destruct s. cbn [set_ss_long SbasModel.ss_iode SbasModel.ss_dorb SbasModel.ss_dclk SbasModel.ss_dvel SbasModel.ss_ddft].
  destruct (Z.eqb_spec (slot2sat slot) a) as [<-|H].
  - rewrite !zget_zset_same. unfold ent_val, e. cbn [e_rate e_iod e_dx e_dy e_dz e_db].
    rewrite !sval_code, !oneg_neg. reflexivity.
  - rewrite !zget_zset_other by assumption. reflexivity.
Qed.

(* ---------- half messages ---------- *)
Definition at_prn (k : Z) : option Z := Some (slot2sat k).
(** the entries of a half message stored by slot number *)
Definition after (f : Z -> option Z) (l : list lent) (s s' : sst) : Prop :=
  frame s s' /\ forall a, a <> 0 -> long s' a = match last_ent f a l with Some e => Some (ent_val e) | None => long s a end.
Lemma last_app f a l l' : last_ent f a (l ++ l') = match last_ent f a l' with Some e => Some e | None => last_ent f a l end.
Proof.
  induction l as [|e l IH]; cbn [app last_ent]; [now destruct (last_ent f a l')|]. rewrite IH. now destruct (last_ent f a l').
Qed.
Lemma after_app f l l' s s1 s2 : after f l s s1 -> after f l' s1 s2 -> after f (l ++ l') s s2.
Proof.
  intros [F1 H1] [F2 H2]. split; [eapply frame_trans; eassumption|]. intros a Ha. rewrite H2, H1 by assumption.
  rewrite last_app. now destruct (last_ent f a l').
Qed.
Lemma slot0 k : k = 0 -> slot2sat k = 0. Proof. now intros ->. Qed.
Lemma lcorr2_ok msg i e s : At msg i (enc (ent0 e)) -> ent_ok 9 10 e -> e_rate e = (0, 0, 0, 0) ->
  exists s', lcorr2 msg i s = Some s' /\ after at_prn [e] s s'.
Proof.
  intros A (U1 & U2 & S1 & S2 & S3 & S4) R. unfold ent0 in A. destruct e as [slot iod dx dy dz db rr]; cbn [e_slot e_iod e_dx e_dy e_dz e_db e_rate] in *. subst rr.
  assert (G : forall p n v, fat [6 # slot; 8 # iod; 9 # dx; 9 # dy; 9 # dz; 10 # db] p = Some (n, v) -> At msg (i + p) (bitsof n v)).
  { intros. eapply fat_at; eassumption. }
  pose proof (G 0%nat 6%nat slot eq_refl) as G0. pose proof (G 6%nat 8%nat iod eq_refl) as G1. pose proof (G 14%nat 9%nat dx eq_refl) as G2.
  pose proof (G 23%nat 9%nat dy eq_refl) as G3. pose proof (G 32%nat 9%nat dz eq_refl) as G4. pose proof (G 41%nat 10%nat db eq_refl) as G5.
  rewrite Nat.add_0_r in G0. unfold lcorr2.
  rewrite (getu_val _ _ _ _ G0 U1), (getu_val _ _ _ _ G1 U2). cbn [bind].
  rewrite (gets_val _ _ _ _ G2 ltac:(lia) S1), (gets_val _ _ _ _ G3 ltac:(lia) S2), (gets_val _ _ _ _ G4 ltac:(lia) S3), (gets_val _ _ _ _ G5 ltac:(lia) S4). cbn [bind].
  eexists. split; [reflexivity|]. destruct (add_corr slot iod dx dy dz db 0 0 0 0 s) as [F H]. cbv zeta in H.
  unfold after. cbn [last_ent e_slot at_prn].
  destruct (Z.gtb_spec slot 0); [|split; [apply frame_refl|]; intros; replace (0 <? slot) with false by lia; reflexivity].
  split; [exact F|]. intros a Ha. rewrite H. replace (0 <? slot) with true by lia. now destruct (slot2sat slot =? a).
Qed.
Lemma half_width h : length (enc (half_fields h)) = 106%nat.
Proof. rewrite enc_length. destruct h as [a b p sp|a toa p]; [reflexivity|]. cbn [half_fields]. unfold ent1. now destruct (e_rate a) as [[[? ?] ?] ?]. Qed.

Lemma half_ok_dec msg i h s : At msg i (enc (half_fields h)) -> half_ok h ->
  (half_iodp h = ss_iodp s -> exists s', lcorr_half msg i s = Some ((i + 106)%nat, s') /\ after at_prn (half_ents h) s s') /\
  (half_iodp h <> ss_iodp s -> lcorr_half msg i s = Some ((i + 1)%nat, s)).
Proof.
  intros A OK.
  assert (G : forall p n v, fat (half_fields h) p = Some (n, v) -> At msg (i + p) (bitsof n v)).
  { intros. eapply fat_at; eassumption. }
  destruct h as [a b iodp sp|a toa iodp]; cbn [half_fields half_iodp half_ents half_ok] in *.
  - destruct OK as (Oa & Ob & Ra & Rb & Ui).
    pose proof (G 0%nat 1%nat 0 eq_refl) as G0. rewrite Nat.add_0_r in G0.
    pose proof (G 103%nat 2%nat iodp eq_refl) as G1.
    assert (E0 : getu msg i 1 = Some 0) by (apply getu_val; [exact G0|split; [discriminate|reflexivity]]).
    assert (E1 : getu msg (S i + 102) 2 = Some iodp).
    { replace (S i + 102)%nat with (i + 103)%nat by lia. apply getu_val; [exact G1|exact Ui]. }
    rewrite !enc_app in A. apply At_app in A. destruct A as [_ A]. apply At_app in A. destruct A as [Aa A]. apply At_app in A. destruct A as [Ab _].
    rewrite !enc_length in *. change (fwidth [1 # 0]) with 1%nat in *. change (fwidth (ent0 a)) with 51%nat in *.
    unfold lcorr_half. rewrite E0. cbn [bind]. change (0 =? 0) with true. cbv iota. rewrite E1. cbn [bind].
    split; intros E.
    + rewrite E, Z.eqb_refl. cbn [negb].
      replace (i + 1)%nat with (S i) in Aa, Ab by lia.
      destruct (lcorr2_ok msg (S i) a s Aa Oa Ra) as (s1 & R1 & F1). rewrite R1. cbn [bind].
      destruct (lcorr2_ok msg (S i + 51) b s1 Ab Ob Rb) as (s2 & R2 & F2). rewrite R2. cbn [bind].
      exists s2. split; [f_equal; f_equal; lia|]. exact (after_app _ [a] [b] _ _ _ F1 F2).
    + replace (iodp =? ss_iodp s) with false by lia. cbn [negb]. f_equal. f_equal. lia.
  - destruct OK as ((U1 & U2 & S1 & S2 & S3 & S4) & Or & Ui). destruct a as [slot iod dx dy dz db [[[rx ry] rz] rb]]. unfold ent1 in *.
    cbn [e_slot e_iod e_dx e_dy e_dz e_db e_rate app] in *. destruct Or as (S5 & S6 & S7 & S8).
    pose proof (G 0%nat 1%nat 1 eq_refl) as G0. rewrite Nat.add_0_r in G0.
    assert (E0 : getu msg i 1 = Some 1) by (apply getu_val; [exact G0|split; [discriminate|reflexivity]]).
    assert (E1 : getu msg (S i + 103) 2 = Some iodp).
    { replace (S i + 103)%nat with (i + 104)%nat by lia. apply getu_val; [exact (G 104%nat 2%nat iodp eq_refl)|exact Ui]. }
    assert (H : forall p n v, fat (half_fields (L1 (LE slot iod dx dy dz db (rx, ry, rz, rb)) toa iodp)) (S p) = Some (n, v) -> At msg (S i + p) (bitsof n v)).
    { intros. replace (S i + p)%nat with (i + S p)%nat by lia. now apply G. }
    pose proof (H 0%nat 6%nat slot eq_refl) as H0. rewrite Nat.add_0_r in H0.
    pose proof (H 6%nat 8%nat iod eq_refl) as H1. pose proof (H 14%nat 11%nat dx eq_refl) as H2. pose proof (H 25%nat 11%nat dy eq_refl) as H3.
    pose proof (H 36%nat 11%nat dz eq_refl) as H4. pose proof (H 47%nat 11%nat db eq_refl) as H5. pose proof (H 58%nat 8%nat rx eq_refl) as H6.
    pose proof (H 66%nat 8%nat ry eq_refl) as H7. pose proof (H 74%nat 8%nat rz eq_refl) as H8. pose proof (H 82%nat 8%nat rb eq_refl) as H9.
    pose proof (H 90%nat 13%nat toa eq_refl) as H10.
    pose proof (getu_at _ _ _ H10) as T. rewrite bitsof_length in T.
    unfold lcorr_half. rewrite E0. cbn [bind]. change (1 =? 0) with false. cbv iota. rewrite E1. cbn [bind].
    split; intros E.
    + rewrite E, Z.eqb_refl. cbn [negb].
      rewrite (getu_val _ _ _ _ H0 U1), (getu_val _ _ _ _ H1 U2). cbn [bind].
      rewrite (gets_val _ _ _ _ H2 ltac:(lia) S1), (gets_val _ _ _ _ H3 ltac:(lia) S2), (gets_val _ _ _ _ H4 ltac:(lia) S3), (gets_val _ _ _ _ H5 ltac:(lia) S4). cbn [bind].
      rewrite (gets_val _ _ _ _ H6 ltac:(lia) S5), (gets_val _ _ _ _ H7 ltac:(lia) S6), (gets_val _ _ _ _ H8 ltac:(lia) S7), (gets_val _ _ _ _ H9 ltac:(lia) S8). cbn [bind].
      rewrite T. cbn [bind]. eexists. split; [f_equal; f_equal; lia|].
      destruct (add_corr slot iod dx dy dz db rx ry rz rb s) as [F K]. cbv zeta in K. split; [exact F|]. intros a Ha. rewrite K.
      cbn [last_ent e_slot at_prn]. unfold U in U1. destruct (Z.ltb_spec 0 slot).
      * now destruct (slot2sat slot =? a).
      * rewrite slot0 by lia. destruct (Z.eqb_spec 0 a); [congruence|reflexivity].
    + replace (iodp =? ss_iodp s) with false by lia. cbn [negb]. f_equal. f_equal. lia.
Qed.

Lemma plain_slot k : 1 <= k <= 32 -> slot2sat k = slot_sat k.
Proof. intros. unfold slot2sat, slot_sat. replace ((k >=? 1) && (k <=? 32)) with true by lia. now replace (k <=? 37) with true by lia. Qed.
Definition plain (s : sst) (e : lent) : Prop := 0 < e_slot e -> e_slot e <= 32 /\ mask_pos s (e_slot e) = Some (slot_sat (e_slot e)).
Lemma last_plain s a l : Forall (plain s) l -> last_ent at_prn a l = last_ent (mask_pos s) a l.
Proof.
  induction 1 as [|e l He _ IH]; [reflexivity|]. cbn [last_ent]. rewrite IH. destruct (last_ent (mask_pos s) a l); [reflexivity|].
  destruct (Z.ltb_spec 0 (e_slot e)) as [H|]; [|reflexivity]. destruct (He H) as [H1 H2]. rewrite H2. unfold at_prn.
  now rewrite plain_slot by lia.
Qed.

Theorem long_decoded pre h1 h2 rest s : half_ok h1 -> half_ok h2 -> half_iodp h1 = ss_iodp s -> half_iodp h2 = ss_iodp s ->
  Forall (plain s) (half_ents h1 ++ half_ents h2) ->
  exists s', decode_l1 (long_msg pre h1 h2 rest) s = Some s' /\
    ss_sat s' = ss_sat s /\ ss_iodp s' = ss_iodp s /\ ss_hclk s' = ss_hclk s /\ ss_udrei s' = ss_udrei s /\
    forall a, a <> 0 -> long s' a = match last_ent (mask_pos s) a (half_ents h1 ++ half_ents h2) with
                                    | Some e => Some (ent_val e) | None => long s a end.
Proof.
  intros O1 O2 P1 P2 PL. set (M := long_msg pre h1 h2 rest).
  assert (A0 : At M 0 M). { exists [], []. now rewrite app_nil_r. }
  unfold M in A0 at 2. unfold long_msg in A0. rewrite !enc_app, <- !app_assoc in A0.
  apply At_app in A0. destruct A0 as [B0 A0]. apply At_app in A0. destruct A0 as [B1 A0]. apply At_app in A0. destruct A0 as [B2 _].
  rewrite !half_width in B2. change (0 + length (enc [8 # pre; 6 # 25]))%nat with 14%nat in *. clearbody M.
  destruct (half_ok_dec M 14 h1 s B1 O1) as [H1 _]. destruct (H1 P1) as (s1 & R1 & F1).
  assert (Q : ss_iodp s1 = ss_iodp s) by apply F1.
  destruct (half_ok_dec M (14 + 106) h2 s1 B2 O2) as [H2 _]. destruct (H2 ltac:(congruence)) as (s2 & R2 & F2).
  exists s2. split.
  - unfold decode_l1. rd1. rd1. cbn [Z.eqb Pos.eqb Z.leb Z.compare Pos.compare Pos.compare_cont andb]. unfold decode_long_corr. rewrite R1. cbn [bind]. rewrite R2. reflexivity.
  - pose proof (after_app _ _ _ _ _ _ F1 F2) as [F H]. destruct F as (T1 & T2 & T3 & T4). repeat (split; [assumption|]).
    intros a Ha. rewrite H by assumption. now rewrite (last_plain s).
Qed.

(* ---------- mixed corrections: the fast part ---------- *)
Lemma lcorr_half_any msg i s : (i + 106 <= length msg)%nat ->
  exists i' s', lcorr_half msg i s = Some (i', s') /\ frame s s'.
Proof.
  intros L. unfold lcorr_half.
  destruct (getu_some msg i 1) as [vc ->]; [lia|]. cbn [bind].
  destruct (getu_some msg (S i + (if vc =? 0 then 102 else 103)) 2) as [p ->]; [destruct (vc =? 0); lia|]. cbn [bind].
  destruct (negb (p =? ss_iodp s)); [exists (S i), s; split; [reflexivity|apply frame_refl]|].
  assert (gets_some : forall j n, (j + n <= length msg)%nat -> exists v, gets msg j n = Some v).
  { intros j n H. unfold gets. destruct (getu_some msg j n H) as [u ->]. now eexists. }
  assert (L2 : forall j t, (j + 51 <= length msg)%nat -> exists t', lcorr2 msg j t = Some t' /\ frame t t').
  { intros j t H. unfold lcorr2.
    destruct (getu_some msg j 6) as [slot ->]; [lia|]. destruct (getu_some msg (j + 6) 8) as [iod ->]; [lia|]. cbn [bind].
    destruct (gets_some (j + 14) 9)%nat as [dx ->]; [lia|]. destruct (gets_some (j + 23) 9)%nat as [dy ->]; [lia|].
    destruct (gets_some (j + 32) 9)%nat as [dz ->]; [lia|]. destruct (gets_some (j + 41) 10)%nat as [db ->]; [lia|]. cbn [bind].
    eexists. split; [reflexivity|]. destruct (slot >? 0); [|apply frame_refl]. apply add_corr. }
  destruct (vc =? 0).
  - destruct (L2 (S i) s) as (s1 & -> & F1); [lia|]. cbn [bind]. destruct (L2 (S i + 51)%nat s1) as (s2 & -> & F2); [lia|]. cbn [bind].
    eexists _, s2. split; [reflexivity|]. eapply frame_trans; eassumption.
  - destruct (getu_some msg (S i) 6) as [slot ->]; [lia|]. destruct (getu_some msg (S i + 6) 8) as [iod ->]; [lia|]. cbn [bind].
    destruct (gets_some (S i + 14) 11)%nat as [dx ->]; [lia|]. destruct (gets_some (S i + 25) 11)%nat as [dy ->]; [lia|].
    destruct (gets_some (S i + 36) 11)%nat as [dz ->]; [lia|]. destruct (gets_some (S i + 47) 11)%nat as [db ->]; [lia|].
    destruct (gets_some (S i + 58) 8)%nat as [rx ->]; [lia|]. destruct (gets_some (S i + 66) 8)%nat as [ry ->]; [lia|].
    destruct (gets_some (S i + 74) 8)%nat as [rz ->]; [lia|]. destruct (gets_some (S i + 82) 8)%nat as [rb ->]; [lia|].
    destruct (getu_some msg (S i + 90) 13) as [toa ->]; [lia|]. cbn [bind].
    eexists _, _. split; [reflexivity|]. apply add_corr.
Qed.
Theorem mixed_fast_decoded pre iodp blk iodf spare fcs uds h rest s :
  U 2 iodp -> U 2 blk -> fast_ok 6 fcs uds -> NoDup (ss_sat s) ->
  exists s', decode_l1 (mixed_msg pre iodp blk iodf spare fcs uds h rest) s = Some s' /\
    (iodp <> ss_iodp s -> s' = s) /\
    (iodp = ss_iodp s ->
      ss_sat s' = ss_sat s /\ ss_iodp s' = ss_iodp s /\
      (forall j a, nth_error (ss_sat s) j = Some a ->
        zget a (ss_hclk s') = match entry fcs (Z.to_nat (13 * blk)) j with Some v => Some (fast_val v) | None => zget a (ss_hclk s) end) /\
      (forall a, ~ In a (ss_sat s) -> zget a (ss_hclk s') = zget a (ss_hclk s)) /\
      ((Z.to_nat (13 * blk) + 6 <= length (ss_sat s))%nat -> forall j a, nth_error (ss_sat s) j = Some a ->
        zget a (ss_udrei s') = match entry uds (Z.to_nat (13 * blk)) j with Some v => Some v | None => zget a (ss_udrei s) end)).
Proof.
  intros Ui Ub OK N. set (M := mixed_msg pre iodp blk iodf spare fcs uds h rest).
  assert (A0 : At M 0 M). { exists [], []. now rewrite app_nil_r. }
  unfold M in A0 at 2. unfold mixed_msg in A0.
  assert (W : fwidth (map (fun v => 12 # v) fcs) = 72%nat).
  { destruct OK as [L _]. rewrite (fwidth_map 12 (fun v => v)), L. reflexivity. }
  assert (W2 : fwidth (map (fun v => 4 # v) uds) = 24%nat).
  { destruct OK as (_ & L & _). rewrite (fwidth_map 4 (fun v => v)), L. reflexivity. }
  apply At_app in A0. destruct A0 as [B0 A0]. apply At_app in A0. destruct A0 as [B1 A0]. apply At_app in A0. destruct A0 as [B2 A0].
  apply At_app in A0. destruct A0 as [B3 A0]. apply At_app in A0. destruct A0 as [B4 _].
  apply At_bound in B4. rewrite half_width in B4. rewrite !enc_length, ?W, ?W2 in *.
  change (fwidth [8 # pre; 6 # 24]) with 14%nat in *. change (fwidth [2 # iodp; 2 # blk; 2 # iodf; 4 # spare]) with 10%nat in *. cbn [Nat.add] in *.
  clearbody M.
  assert (Hb : 0 <= blk) by apply Ub.
  destruct (fast_blk_ok M 14 6 blk fcs uds s Hb N OK B1 B2) as (i' & s' & R & I & P1 & P2 & P3 & P4 & P5 & P6).
  destruct (lcorr_half_any M i' s' ltac:(lia)) as (i2 & s2 & R2 & F1 & F2 & F3 & F4).
  destruct (Z.eq_dec iodp (ss_iodp s)) as [E|E].
  - exists s2. split; [|split; [tauto|intros _]].
    + unfold decode_l1. rd1. rd1. cbn [Z.eqb Pos.eqb Z.leb Z.compare Pos.compare Pos.compare_cont andb]. unfold decode_mixed_corr. cbn [Nat.add]. rd1. rd1. rd1.
      rewrite E, Z.eqb_refl. cbn [negb]. rewrite R. cbn [bind]. rewrite R2. reflexivity.
    + rewrite F1, F2, F3, F4. auto.
  - exists s. split; [|tauto]. unfold decode_l1. rd1. rd1. cbn [Z.eqb Pos.eqb Z.leb Z.compare Pos.compare Pos.compare_cont andb]. unfold decode_mixed_corr. cbn [Nat.add]. rd1. rd1. rd1.
    replace (iodp =? ss_iodp s) with false by lia. reflexivity.
Qed.

(* ---------- only a mask message changes the mask ---------- *)
Lemma bind_some {A B} (m : option A) (f : A -> option B) r : bind m f = Some r -> exists a, m = Some a /\ f a = Some r.
Proof. destruct m as [a|]; [|discriminate]. cbn. eauto. Qed.
Ltac inv_binds :=
  repeat match goal with
  | H : bind _ _ = Some _ |- _ => apply bind_some in H; let x := fresh "x" in let E := fresh "E" in destruct H as (x & E & H); cbv beta zeta in H
  | H : Some _ = Some _ |- _ => injection H as H
  | H : None = Some _ |- _ => discriminate H
  end.
Definition same_mask (s s' : sst) : Prop := ss_sat s' = ss_sat s /\ ss_iodp s' = ss_iodp s.
Lemma sm_refl s : same_mask s s. Proof. now split. Qed.
Lemma sm_trans a b c : same_mask a b -> same_mask b c -> same_mask a c.
Proof. unfold same_mask. intuition congruence. Qed.
Lemma sm_frame s s' : frame s s' -> same_mask s s'.
Proof. unfold frame, same_mask. tauto. Qed.
Lemma sm_fc msg base : forall n k i s r, fc_loop msg i n k base s = Some r -> same_mask s (snd r).
Proof.
  induction n as [|n IH]; intros k i s r H; cbn [fc_loop] in H; inv_binds; [subst; apply sm_refl|].
  destruct (nth_error _ _); [|injection H as <-; apply sm_refl]. apply IH in H. eapply sm_trans; [|exact H]. now destruct s.
Qed.
Lemma sm_ud msg base : forall n k i s r, ud_loop msg i n k base s = Some r -> same_mask s (snd r).
Proof.
  induction n as [|n IH]; intros k i s r H; cbn [ud_loop] in H; inv_binds; [subst; apply sm_refl|].
  destruct (nth_error _ _); [|injection H as <-; apply sm_refl]. apply IH in H. eapply sm_trans; [|exact H]. unfold set_t0. now destruct s.
Qed.
Lemma sm_blk msg i n t s r : fast_corr_blk msg i n t s = Some r -> same_mask s (snd r).
Proof.
  unfold fast_corr_blk. intros H. inv_binds. destruct x as [i1 s1]. apply sm_fc in E. apply sm_ud in H. eapply sm_trans; eassumption.
Qed.
Lemma sm_u4 msg put : (forall a u s, same_mask s (put a u s)) -> forall l i s s', u4_loop msg i l put s = Some s' -> same_mask s s'.
Proof.
  intros P. induction l as [|a l IH]; intros i s s' H; cbn [u4_loop] in H; inv_binds; [subst; apply sm_refl|].
  apply IH in H. eapply sm_trans; [apply P|exact H].
Qed.
Lemma sm_lcorr2 msg i s s' : lcorr2 msg i s = Some s' -> same_mask s s'.
Proof.
  unfold lcorr2. intros H. inv_binds. subst s'. destruct (x >? 0); [|apply sm_refl]. apply sm_frame. apply add_corr.
Qed.
Lemma sm_half msg i s r : lcorr_half msg i s = Some r -> same_mask s (snd r).
Proof.
  unfold lcorr_half. intros H. inv_binds. destruct (negb _); [injection H as <-; apply sm_refl|].
  destruct (x =? 0).
  - inv_binds. subst r. cbn [snd]. apply sm_lcorr2 in E1, E2. eapply sm_trans; eassumption.
  - inv_binds. subst r. cbn [snd]. apply sm_frame. apply add_corr.
Qed.
Theorem mask_kept msg s s' : decode_l1 msg s = Some s' -> getu msg 8 6 <> Some 1 -> ss_sat s' = ss_sat s /\ ss_iodp s' = ss_iodp s.
Proof.
  unfold decode_l1. intros H N. change (same_mask s s'). inv_binds. rename x0 into mt.
  destruct (Z.eqb_spec mt 1) as [->|_]; [contradiction|].
  destruct ((2 <=? mt) && (mt <=? 5)).
  { unfold decode_fast_corr in H. inv_binds. destruct (negb _); [injection H as <-; apply sm_refl|]. inv_binds. subst s'. eapply sm_blk; eassumption. }
  destruct (mt =? 6).
  { unfold decode_integrity in H. inv_binds. eapply sm_u4; [|exact H]. intros a u t. now destruct t. }
  destruct (mt =? 7).
  { unfold decode_fast_degradation in H. inv_binds. destruct (negb _); [injection H as <-; apply sm_refl|].
    eapply sm_u4; [|exact H]. intros a u t. now destruct t. }
  destruct (mt =? 18).
  { unfold decode_igpmask in H. inv_binds. subst s'. now destruct s. }
  destruct (mt =? 24).
  { unfold decode_mixed_corr in H. inv_binds. destruct (negb _); [injection H as <-; apply sm_refl|]. inv_binds.
    destruct x3 as [i1 s1]. inv_binds. subst s'. apply sm_blk in E4. apply sm_half in E5. eapply sm_trans; eassumption. }
  destruct (mt =? 25).
  { unfold decode_long_corr in H. inv_binds. destruct x0 as [i1 s1]. inv_binds. subst s'. apply sm_half in E1, E2. eapply sm_trans; eassumption. }
  destruct (mt =? 26).
  { unfold decode_iono in H. inv_binds. destruct (negb _); [injection H as <-; apply sm_refl|]. inv_binds.
    destruct (zget _ (ss_vtec s)); [|injection H as <-; apply sm_refl]. inv_binds. subst s'. now destruct s. }
  injection H as <-. apply sm_refl.
Qed.
