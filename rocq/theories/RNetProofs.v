(** The decoder reads the messages of RNetSpec.v; times of messages. *)
From Verif Require Import SatModel SatSpec SatProofs TimeModel TimeSpec TimeProofs TimeLeap CssrState CssrFacts RtcmFrame RtcmSsr RtcmFrameSpec RtcmFrameProofs
  RtcmSsrSpec RtcmSsrProofs BitModel BitProofs MsmModel MsmSpec MsmProofs RNetModel RNetSpec Base BaseFacts.
From Coq Require Import ZifyBool ZifyNat.
Notation length := List.length.
Open Scope Z_scope.

(* ---------- network residuals ---------- *)
Lemma net_sat_len s x : length (nres_bits s x) = (net_slot s + 43)%nat.
Proof. unfold nres_bits. rewrite !app_length, !bitsof_length. lia. Qed.
Definition resid (x : nres) := (q_0c x, q_0d x, q_0h x, q_ic x, q_id x).
Lemma dec_net_sats s msg : forall l i d, Forall (nres_ok s) l -> At msg i (flat_map (nres_bits s) l) ->
  net_sats s (length l) msg i d =
    Some (fold_left (fun d x => zset (prn2sat s (q_prn x)) (resid x) d) l d, (i + length (flat_map (nres_bits s) l))%nat).
Proof.
  induction l as [|x l IH]; intros i d F A; [cbn; now rewrite Nat.add_0_r|].
  apply Forall_cons_iff in F as [(O & H0 & H1 & H2 & H3 & H4 & H5) F]. cbn [flat_map length fold_left net_sats] in *. apply At_app in A as [A1 A]. rewrite net_sat_len in A.
  unfold nres_bits in A1. do 5 (let K := fresh "B" in apply At_app in A1 as [K A1]). rewrite ?bitsof_length in *.
  assert (0 <= slot s (q_prn x)) as P by (clear - O; destruct s; cbn in *; lia).
  change (match s with QZS => 4%nat | _ => 6%nat end) with (net_slot s).
  rewrite (getu_bits msg i (net_slot s) (slot s (q_prn x))) by (auto; lia). cbn [bind].
  do 5 gu. rewrite slot_sat. rewrite IH; [|exact F|eapply At_pos; [exact A|lia]]. rewrite app_length, net_sat_len. f_equal. f_equal. lia.
Qed.
Lemma prn_inj s p p' : owns s p -> owns s p' -> prn2sat s p = prn2sat s p' -> p = p'.
Proof.
  intros O O' E. destruct (sat2prn_prn2sat s p O) as [E1 _]. destruct (sat2prn_prn2sat s p' O') as [E2 _]. rewrite E, E2 in E1. now injection E1 as ->.
Qed.
Lemma fold_net_other s k : forall l d, ~ In k (map (fun x => prn2sat s (q_prn x)) l) ->
  zget k (fold_left (fun d x => zset (prn2sat s (q_prn x)) (resid x) d) l d) = zget k d.
Proof.
  induction l as [|x l IH]; intros d H; [reflexivity|]. cbn [fold_left map In] in *. rewrite IH by tauto. apply zget_zset_other. intros E. apply H. now left.
Qed.
Lemma fold_net_in s x : forall l d, Forall (nres_ok s) l -> NoDup (map q_prn l) -> In x l ->
  zget (prn2sat s (q_prn x)) (fold_left (fun d x => zset (prn2sat s (q_prn x)) (resid x) d) l d) = Some (resid x).
Proof.
  induction l as [|y l IH]; intros d F N H; [destruct H|]. apply Forall_cons_iff in F as [Fy F]. cbn [map] in N. inversion N as [|? ? N1 N2]; subst. cbn [fold_left].
  destruct H as [->|H]; [|now apply IH]. rewrite fold_net_other; [apply zget_zset_same|]. intros H. apply in_map_iff in H as (z & E & Hz).
  rewrite Forall_forall in F. apply N1. apply in_map_iff. exists z. split; [|exact Hz]. destruct Fy as [O _]. destruct (F z Hz) as [O' _]. now apply (prn_inj s).
Qed.
Lemma net_time_some s week now msg i tow : 0 <= tow < 2 ^ Z.of_nat (net_tow s) -> At msg i (bitsof (net_tow s) tow) ->
  exists t, decode_nrtk_time s week now msg i = Some (t, (i + net_tow s)%nat).
Proof.
  intros H A. unfold decode_nrtk_time. change (match s with GLO => 17%nat | _ => 20%nat end) with (net_tow s). gu. eexists. reflexivity.
Qed.
Lemma net_type s mt : net_number s = Some mt -> nrtktype mt = (s, 1) /\ dispatch mt = KNrtk /\ 0 <= mt < 4096.
Proof. destruct s; intros E; try discriminate E; injection E as <-; (split; [reflexivity|split; [reflexivity|lia]]). Qed.
Lemma dec_net s mt n (st : nst) msg : net_number s = Some mt -> net_ok s n -> At msg 24 (net_message mt s n) ->
  exists st', decode_nrtk st msg = Some (st', (24 + length (net_message mt s n))%nat) /\ net_effect s n st st' /\ n_time st' = n_time st.
Proof.
  intros E (H1 & H2 & H3 & H4 & H5 & H6) A. destruct (net_type s mt E) as (T1 & T2 & T3). unfold net_message, net_body in *.
  do 5 (let K := fresh "B" in apply At_app in A as [K A]). rewrite ?bitsof_length in *.
  unfold decode_nrtk. rewrite (getu_bits msg 24 12 mt) by (auto; cbn; lia). cbn [bind]. rewrite T2, T1. cbn [fst]. unfold decode_net.
  destruct (net_time_some s (n_week st) (n_time st) msg 36 (w_tow n) H1) as [t Et]; [eapply At_pos; [exact B0|lia]|]. rewrite Et. cbn [bind].
  do 3 gu. rewrite Nat2Z.id. rewrite dec_net_sats; [|exact H5|eapply At_pos; [exact A|lia]]. cbn [bind].
  eexists. split; [apply f_equal, f_equal2; [reflexivity|]; rewrite !app_length, !bitsof_length; lia|]. split; [|reflexivity].
  unfold net_effect. cbn [n_refid n_nrefs n_nsat n_week n_r]. repeat (split; [reflexivity|]). split.
  - intros x Hx. now rewrite (fold_net_in s x).
  - intros k Hk. now apply fold_net_other.
Qed.

(* ---------- time of a message ---------- *)
Lemma gps_sec w tow : 0 <= tow <= 1000000000 -> gpst2time 1 w tow = GT (86400 * day_number 1980 1 6 + 604800 * w + tow) 0.
Proof.
  intros H. unfold gpst2time, gpst0. destruct (wt2time_ok 1 1980 1 6 w tow) as [A B]; try lia. apply (normal_eq 1); [lia|exact B|split; cbn; lia|].
  rewrite A. unfold ticks. cbn [gt gs]. lia.
Qed.
Lemma bdt_sec w tow : 0 <= tow <= 1000000000 -> bdt2time 1 w tow = GT (86400 * day_number 2006 1 1 + 604800 * w + tow) 0.
Proof.
  intros H. unfold bdt2time, bdt0. destruct (wt2time_ok 1 2006 1 1 w tow) as [A B]; try lia. apply (normal_eq 1); [lia|exact B|split; cbn; lia|].
  rewrite A. unfold ticks. cbn [gt gs]. lia.
Qed.
(** the week found for BeiDou: 1356 weeks between the origins *)
Lemma bds_week week tow : 1357 <= week -> 0 <= tow < 604800 ->
  fst (time2bdt 1 (gpst2bdt 1 (gpst2time 1 week tow))) = if tow <? 14 then week - 1357 else week - 1356.
Proof.
  intros Hw Ht. rewrite gps_sec by lia. unfold gpst2bdt. change (- 14 * 1) with (-14 * 1). rewrite (timeadd_secs 1) by (try split; cbn; lia). cbn [gt gs].
  unfold time2bdt, bdt0. set (t := GT _ 0).
  pose proof (time2wt_ok 1 2006 1 1 t ltac:(lia) ltac:(lia) ltac:(lia)) as W.
  change (day_number 2006 1 1) with 13149 in W. change (day_number 1980 1 6) with 3657 in t.
  assert (N : normal 1 t) by (split; cbn; lia). assert (G : 86400 * 13149 <= gt t) by (subst t; cbn [gt]; lia). specialize (W N G).
  destruct (time2wt 1 (EP 2006 1 1 0 0 0) t) as [w x]. destruct W as (E & B & _). cbn [fst]. unfold ticks in E. subst t. cbn [gt gs] in E.
  destruct (tow <? 14) eqn:L; lia.
Qed.
Lemma net_time s mt week now n msg : net_number s = Some mt -> net_ok s n -> 1357 <= week ->
  (s = BDS -> 14 <= w_tow n < 604800) -> At msg 24 (net_message mt s n) -> decode_time week now msg = Some (Some (net_epoch s week now (w_tow n))).
Proof.
  intros E (H1 & _) Hw Hb A. unfold net_message, net_body in A. apply At_app in A as [A1 A]. apply At_app in A as [A2 _]. rewrite bitsof_length in A2.
  unfold decode_time. destruct (net_type s mt E) as (T1 & _ & T3). rewrite (getu_bits msg 24 12 mt) by (auto; cbn; lia). cbn [bind]. rewrite T1.
  assert (msmtype mt = (NONE, 0) /\ ssrtype mt = (NONE, 0) /\ (mt =? 4076) = false) as (-> & -> & ->) by (destruct s; try discriminate E; injection E as <-; repeat split; reflexivity).
  cbn [Z.ltb Z.compare orb Pos.compare Pos.compare_cont].
  unfold decode_nrtk_time. change (match s with GLO => 17%nat | _ => 20%nat end) with (net_tow s).
  change (24 + 12)%nat with 36%nat in A2. rewrite (getu_bits _ _ _ _ A2 H1). cbn [bind].
  destruct s; try discriminate E; cbn [net_tow net_epoch] in *; cbn in H1; try (rewrite gps_sec by lia; reflexivity). 2: reflexivity.
  specialize (Hb eq_refl). pose proof (bds_week week (w_tow n) Hw ltac:(lia)) as W.
  destruct (time2bdt 1 _) as [w x]. cbn [fst] in W. subst w. replace (w_tow n <? 14) with false by lia.
  rewrite bdt_sec by lia. unfold bdt2gpst. rewrite (timeadd_secs 1) by (try split; cbn; lia). cbn [gt gs].
  change (day_number 2006 1 1) with 13149. change (day_number 1980 1 6) with 3657. do 3 f_equal. lia.
Qed.
Lemma net_time_early mt week now n msg : net_number BDS = Some mt -> net_ok BDS n -> 1357 <= week ->
  w_tow n < 14 -> At msg 24 (net_message mt BDS n) ->
  exists t, decode_time week now msg = Some (Some t) /\ gt t = gt (net_epoch BDS week now (w_tow n)) - 604800.
Proof.
  intros E (H1 & _) Hw Hb A. unfold net_message, net_body in A. apply At_app in A as [A1 A]. apply At_app in A as [A2 _]. rewrite bitsof_length in A2.
  unfold decode_time. destruct (net_type BDS mt E) as (T1 & _ & T3). rewrite (getu_bits msg 24 12 mt) by (auto; cbn; lia). cbn [bind]. rewrite T1.
  injection E as <-. change (msmtype 1303) with (NONE, 0). change (ssrtype 1303) with (NONE, 0). cbn [Z.ltb Z.compare orb Pos.compare Pos.compare_cont Z.eqb Pos.eqb].
  unfold decode_nrtk_time. change (24 + 12)%nat with 36%nat in A2. assert (G := getu_bits _ _ _ _ A2 H1). cbn [net_tow] in G. cbv beta iota zeta. rewrite G. clear G. cbn [bind net_epoch]. 
  pose proof (bds_week week (w_tow n) Hw ltac:(lia)) as W.
  destruct (time2bdt 1 _) as [w x]. cbn [fst] in W. subst w. replace (w_tow n <? 14) with true by lia.
  rewrite bdt_sec by lia. unfold bdt2gpst. rewrite (timeadd_secs 1) by (try split; cbn; lia). cbn [gt gs].
  eexists. split; [reflexivity|]. cbn [gt].
  change (day_number 2006 1 1) with 13149. change (day_number 1980 1 6) with 3657. lia.
Qed.
Lemma ssr_range mt s c : ssr_number mt s c -> 0 <= mt < 4096 /\ mt <> 4076.
Proof. intros (b & o & E1 & E2 & ->). destruct s; try discriminate E1; injection E1 as <-; destruct c; try discriminate E2; injection E2 as <-; lia. Qed.
Lemma ssr_time mt s c h es week now msg : ssr_number mt s c -> head_ok false s h -> At msg 24 (message mt s c h es) ->
  decode_time week now msg = Some (Some (msg_time false week now s (g_tow h))).
Proof.
  intros E (H1 & _) A. unfold message, corr_bits, head_bits in A. rewrite <- !app_assoc in A. apply At_app in A as [A1 A]. apply At_app in A as [A2 _]. rewrite bitsof_length in A2.
  change (24 + 12)%nat with 36%nat in A2. destruct (ssr_range mt s c E) as [R Ne]. destruct (std_ssr_ok mt s c E) as (_ & _ & S1 & S2 & _ & S3).
  unfold decode_time. rewrite (getu_bits msg 24 12 mt) by (auto; cbn; lia). cbn [bind].
  assert (msmtype mt = (NONE, 0)) as ->.
  { clear - E. destruct E as (b & o & E1 & E2 & ->). destruct s; try discriminate E1; injection E1 as <-; destruct c; try discriminate E2; injection E2 as <-; reflexivity. }
  cbn [Z.ltb Z.compare]. destruct (ssrtype mt) as [s' k]. cbn [fst snd] in *. subst s'.
  assert (0 < k) by (destruct c; try discriminate S2; injection S2 as S2; lia). replace (0 <? k) with true by lia. replace (mt =? 4076) with false by lia. cbn [orb].
  replace (if negb (gnss_eqb s GLO) then 20%nat else 17%nat) with (tow_len false s) by (destruct s; reflexivity).
  rewrite (getu_bits _ _ _ _ A2 H1). cbn [bind]. unfold msg_time. destruct s; reflexivity.
Qed.
Lemma other_time mt s c h es week now msg : carries mt s c -> ~ ssr_number mt s c -> At msg 24 (message mt s c h es) -> decode_time week now msg = Some None.
Proof.
  intros C N A. unfold message in A. apply At_app in A as [A _].
  assert (H : (0 <= mt < 4096) /\ msmtype mt = (NONE, 0) /\ ssrtype mt = (NONE, 0) /\ nrtktype mt = (NONE, 0) /\ (mt =? 4076) = false).
  { destruct C as [C|[(o & E & _ & ->)|(o & k & E & -> & K)]]; [contradiction| |].
    - destruct c; try discriminate E; injection E as <-; repeat split; try reflexivity; lia.
    - assert (D : k = 0 \/ k = 1 \/ k = 2) by lia. destruct c; try discriminate E; injection E as <-; destruct D as [-> | [-> | ->]]; repeat split; try reflexivity; lia. }
  destruct H as (R & E1 & E2 & E3 & E4). unfold decode_time. rewrite (getu_bits msg 24 12 mt) by (auto; cbn; lia). cbn [bind]. rewrite E1, E2, E3, E4. reflexivity.
Qed.
Lemma msm_epoch mt s msm h sigs vs week now msg : s <> NONE -> msm_number mt s msm -> head_fits h -> At msg 24 (bitsof 12 mt ++ msm_message msm s h sigs vs) ->
  exists t, decode_time week now msg = Some (Some t) /\ ticks 1000 t = epoch_ms s week (h_tow h) /\ normal 1000 t.
Proof.
  intros Hs E (H1 & H2 & _) A. apply At_app in A as [A1 A]. unfold msm_message in A. apply At_app in A as [_ A]. apply At_app in A as [A2 _]. rewrite !bitsof_length in A2.
  change (24 + 12 + 12)%nat with 48%nat in A2. assert (0 <= mt < 4096) by (destruct E as (c & Hc & _ & Hm & ->); lia).
  assert (0 < msm) by (destruct E as (c & Hc & _ & Hm & ->); lia).
  unfold decode_time. rewrite (getu_bits msg 24 12 mt) by (auto; cbn; lia). cbn [bind]. rewrite (proj2 (msmtype_iff mt s msm Hs) E).
  replace (0 <? msm) with true by lia. rewrite (getu_bits _ _ _ _ A2 H2). cbn [bind]. eexists. split; [reflexivity|]. apply msm_time_ok. exact H2.
Qed.

(* ---------- time field of observation messages ---------- *)
Lemma gps_ms_ok w t : 0 <= t < 2000000000 -> ticks 1000 (gpst2time 1000 w t) = gps_ms w t /\ normal 1000 (gpst2time 1000 w t).
Proof. intros H. unfold gpst2time, gpst0. destruct (wt2time_ok 1000 1980 1 6 w t) as [A B]; try lia. split; [rewrite A; unfold gps_ms; lia|exact B]. Qed.
Lemma enc_ms t : normal 1000 t -> 86400 * day_number 1980 1 6 <= gt t ->
  let (w, tow) := time2gpst 1000 t in 0 <= w /\ 0 <= tow < 604800000 /\ gpst2time 1000 w tow = t.
Proof. intros N G. exact (wt_roundtrip_inv 1000 1980 1 6 t ltac:(lia) ltac:(lia) ltac:(lia) N G). Qed.
Lemma g2u_low x : 86400 * 4000 <= x -> 86400 * 3657 <= g2u leap_tab x + 10800.
Proof. intros H. unfold leap_tab. cbn [g2u]. repeat match goal with |- context [if ?b then _ else _] => destruct b end; lia. Qed.
Lemma msm_time_back s t : normal 1000 t -> 86400 * 4000 <= gt t -> (s = GLO -> ~ leap_second (gt t)) ->
  let (w, e) := encode_msm_time s t in 0 <= e < 2 ^ 30 /\ decode_msm_time s w e = t.
Proof.
  intros N G L. assert (G' : 86400 * day_number 1980 1 6 <= gt t) by (change (day_number 1980 1 6) with 3657; lia).
  assert (P : let (w, tow) := time2gpst 1000 t in 0 <= tow < 2 ^ 30 /\ gpst2time 1000 w tow = t).
  { pose proof (enc_ms t N G') as H. destruct (time2gpst 1000 t) as [w tow]. destruct H as (_ & B & E). split; [cbn; lia|exact E]. }
  destruct s; try exact P.
  2: { (* GLONASS *)
    cbn [encode_msm_time]. set (u := timeadd 1000 (gpst2utc 1000 t) 10800000).
    assert (Nu : normal 1000 u) by (apply timeadd_normal; lia).
    assert (Eu : u = GT (g2u leap_tab (gt t) + 10800) (gs t)).
    { unfold u. rewrite gpst2utc_eq by (auto; lia). change 10800000 with (10800 * 1000). now rewrite timeadd_secs by (auto; lia). }
    assert (Gu : 86400 * day_number 1980 1 6 <= gt u) by (rewrite Eu; cbn [gt]; change (day_number 1980 1 6) with 3657; now apply g2u_low).
    pose proof (enc_ms u Nu Gu) as H. destruct (time2gpst 1000 u) as [w tow]. destruct H as (_ & B & E).
    rewrite Z.quot_div_nonneg by lia. pose proof (Z.div_mod tow 86400000 ltac:(lia)) as D. pose proof (Z.mod_pos_bound tow 86400000 ltac:(lia)) as M.
    set (d := tow / 86400000) in *. assert (Hd : 0 <= d < 7) by lia. set (r := tow - d * 86400000).
    assert (Hr : 0 <= r < 86400000) by (unfold r; lia).
    assert (X : Z.lor (Z.shiftl (Z.land d 31) 27) (Z.land r 134217727) = d * 134217728 + r).
    { change 31 with (Z.ones 5). change 134217727 with (Z.ones 27). rewrite !Z.land_ones by lia. rewrite (Z.mod_small d) by (change (2 ^ 5) with 32; lia).
      rewrite (Z.mod_small r) by (change (2 ^ 27) with 134217728; lia). rewrite Z.shiftl_mul_pow2 by lia. change (2 ^ 27) with 134217728.
      rewrite <- Z.lxor_lor; [rewrite <- Z.add_nocarry_lxor; [reflexivity|]|];
      (apply Z.bits_inj'; intros k Hk; rewrite Z.land_spec, Z.bits_0; change 134217728 with (2 ^ 27);
       destruct (Z.ltb_spec k 27); [rewrite Z.mul_pow2_bits_low by lia; reflexivity|
        rewrite (Z.bits_above_log2 r k), andb_false_r; [reflexivity|lia|]; destruct (Z.eq_dec r 0) as [->|]; [cbn; lia|];
        apply Z.log2_lt_pow2; [lia|]; apply (Z.lt_le_trans _ (2 ^ 27)); [change (2 ^ 27) with 134217728; lia|apply Z.pow_le_mono_r; lia]]). }
    rewrite X. split; [change (2 ^ 30) with 1073741824; lia|]. unfold decode_msm_time.
    assert (E1 : Z.land (Z.shiftr (d * 134217728 + r) 27) 31 = d).
    { rewrite Z.shiftr_div_pow2 by lia. change (2 ^ 27) with 134217728. rewrite Z.div_add_l, Z.div_small by lia. change 31 with (Z.ones 5). rewrite Z.land_ones by lia.
      rewrite Z.add_0_r. apply Z.mod_small. change (2 ^ 5) with 32. lia. }
    assert (E2 : Z.land (d * 134217728 + r) 134217727 = r).
    { change 134217727 with (Z.ones 27). rewrite Z.land_ones by lia. change (2 ^ 27) with 134217728. rewrite Z.add_comm, Z.mod_add by lia. apply Z.mod_small. lia. }
    rewrite E1, E2. replace (r + d * 86400000) with tow by (unfold r; lia). rewrite E.
    replace (timeadd 1000 u (- 10800000)) with (gpst2utc 1000 t).
    + apply gpst_roundtrip; [lia|exact N|now apply L].
    + rewrite Eu. change (-10800000) with (-10800 * 1000). rewrite timeadd_secs by (auto; try lia). cbn [gt gs]. rewrite gpst2utc_eq by (auto; lia). f_equal. lia.
  } (* BeiDou *)
    cbn [encode_msm_time decode_msm_time]. unfold gpst2bdt. change (- 14 * 1000) with (-14 * 1000). rewrite timeadd_secs by (auto; lia). set (u := GT _ _).
    assert (Nu : normal 1000 u) by exact N. assert (Gu : 86400 * day_number 1980 1 6 <= gt u) by (subst u; cbn [gt]; change (day_number 1980 1 6) with 3657; lia).
    pose proof (enc_ms u Nu Gu) as H. destruct (time2gpst 1000 u) as [w tow]. destruct H as (_ & B & E). split; [change (2 ^ 30) with 1073741824; lia|]. rewrite E.
    unfold bdt2gpst. rewrite timeadd_secs by (auto; lia). subst u. cbn [gt gs]. destruct t as [a b]. cbn [gt gs]. f_equal. lia.
Qed.
