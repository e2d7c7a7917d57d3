(** GLONASS FDMA: strings kept by satellite with their times of reception. *)
From Verif Require Import SatModel SatProofs TimeModel TimeSpec TimeProofs CssrState CssrFacts RawModel RawSpec RawFacts RawGal RawLnav RawProofs NavModel NavSpec NavFacts GloModel GloSpec GloFacts RtcmFrameProofs.
From Verif Require Import Base BaseFacts FieldFacts.
From Coq Require Import ZifyBool ZifyNat.
Notation length := List.length.
Open Scope Z_scope.

Definition gnone : gstring := GS 0 (Gx 0 0) 0.
Definition gor (o : option (gstring * Z)) : gstring * Z := match o with Some x => x | None => (gnone, 0) end.
Definition ggs (k : Z) (x : gstring * Z) : Prop := gstr_ok (g_str (fst x)) /\ gno (g_str (fst x)) = k /\ 0 <= snd x < 604800.
(** what a slot can hold *)
Definition gsl (k : Z) (x : gstring * Z) : Prop := ggs k x \/ x = (gnone, 0).
Definition gholds (b : bits) (k : Z) (o : option (gstring * Z)) : Prop :=
  At b (96 * Z.to_nat (k - 1)) (enc (gstring_fields (fst (gor o)))) /\ At b (480 + 32 * Z.to_nat (k - 1)) (enc [(32 # snd (gor o))]).
Definition gday (week time : Z) : Z := 86400 * gps0 + 604800 * week + (time - time mod 86400).
Definition gtod (week time x : Z) : Z := gday week time + glo_day x (time mod 86400).
Definition gres (e : fev) (L : Z -> option (gstring * Z)) : option geph :=
  if (1 <=? gno (g_str (fe_str e))) && (gno (g_str (fe_str e)) <=? 5) then
    fdma_of (prn2sat GLO (fe_prn e)) (fe_freq e) (gday (fe_week e) (fe_time e)) (gtod (fe_week e) (fe_time e)) (L 1, L 2, L 3, L 4, L 5)
  else None.
Lemma gwid s : length (enc (gstring_fields s)) = 96%nat.
Proof. rewrite enc_length. destruct s as [? [] ?]; reflexivity. Qed.
Lemma gno_range s : gstr_ok (g_str s) -> U 4 (gno (g_str s)).
Proof. intros H. destruct (g_str s); cbn [gstr_ok gno] in *; unfold U; lia. Qed.
Lemma gor_of sat freq day tof (L : Z -> option (gstring * Z)) :
  fdma_of sat freq day tof (Some (gor (L 1)), Some (gor (L 2)), Some (gor (L 3)), Some (gor (L 4)), Some (gor (L 5))) = fdma_of sat freq day tof (L 1, L 2, L 3, L 4, L 5).
Proof.
  destruct (L 1) as [[[i1 [] c1] t1]|]; cbn [gor fdma_of g_str gnone]; try reflexivity; destruct (L 2) as [[[i2 [] c2] t2]|]; cbn [gor fdma_of g_str gnone]; try reflexivity;
  destruct (L 3) as [[[i3 [] c3] t3]|]; cbn [gor fdma_of g_str gnone]; try reflexivity; destruct (L 4) as [[[i4 [] c4] t4]|]; cbn [gor fdma_of g_str gnone]; try reflexivity;
  destruct (L 5) as [[[i5 [] c5] t5]|]; cbn [gor fdma_of g_str gnone]; reflexivity.
Qed.
Lemma gid b o s : At b o (enc (gstring_fields s)) -> gstr_ok (g_str s) -> getu b (o + 1) 4 = Some (gno (g_str s)).
Proof.
  intros A H. pose proof (gno_range s H) as R. unfold gstring_fields in A. set (z := gstr_fields (g_str s) ++ _) in A. clearbody z. cbn [app] in A.
  apply (getu_u b o _ (o + 1) 4 _ A); [lia| |exact R]. replace (o + 1 - o)%nat with 1%nat by lia. reflexivity.
Qed.
Lemma gsl_ok k x : gsl k x -> gstr_ok (g_str (fst x)) /\ U 32 (snd x).
Proof. unfold U. change (2 ^ 32) with 4294967296. intros [(H & _ & T) | ->]; [split; [exact H|lia]|]. cbn. split; [now left|lia]. Qed.
Lemma gsl_no k x : gsl k x -> gno (g_str (fst x)) = k \/ g_str (fst x) = Gx 0 0.
Proof. intros [(_ & E & _) | ->]; [now left|now right]. Qed.
Lemma gday_eq week time x : 0 <= time < 604800 -> -10800 <= x < 86400 ->
  utc2gpst 1 (gpst2time 1 week (time - time mod 86400 + glo_day x (time mod 86400))) = utc (gtod week time x).
Proof.
  intros H1 H2. pose proof (Z.mod_pos_bound time 86400 ltac:(lia)) as B. rewrite gps_exact.
  - unfold at_week. rewrite utc_gps. unfold gtod, gday. f_equal. lia.
  - unfold glo_day. destruct (x <? _); [lia|]. destruct (x >? _); lia.
Qed.
Lemma k1 x : gsl 1 x -> gno (g_str (fst x)) = 1 -> exists idle chk t r pa tkh tkm tks v a p, x = (GS idle (G1 r pa tkh tkm tks v a p) chk, t) /\ gstr_ok (G1 r pa tkh tkm tks v a p) /\ U 32 t.
Proof.
  intros H. destruct (gsl_ok _ _ H) as [K Ut]. destruct x as [[idle [] chk] t]; cbn [fst snd g_str gno gstr_ok] in *; try discriminate; try lia.
  do 11 eexists. split; [reflexivity|]. split; [exact K|exact Ut].
Qed.
Lemma k2 x : gsl 2 x -> gno (g_str (fst x)) = 2 -> exists idle chk t Bn pb tb r v a p, x = (GS idle (G2 Bn pb tb r v a p) chk, t) /\ gstr_ok (G2 Bn pb tb r v a p) /\ U 32 t.
Proof.
  intros H. destruct (gsl_ok _ _ H) as [K Ut]. destruct x as [[idle [] chk] t]; cbn [fst snd g_str gno gstr_ok] in *; try discriminate; try lia.
  do 10 eexists. split; [reflexivity|]. split; [exact K|exact Ut].
Qed.
Lemma k3 x : gsl 3 x -> gno (g_str (fst x)) = 3 -> exists idle chk t pc g r p0 ln v a p, x = (GS idle (G3 pc g r p0 ln v a p) chk, t) /\ gstr_ok (G3 pc g r p0 ln v a p) /\ U 32 t.
Proof.
  intros H. destruct (gsl_ok _ _ H) as [K Ut]. destruct x as [[idle [] chk] t]; cbn [fst snd g_str gno gstr_ok] in *; try discriminate; try lia.
  do 11 eexists. split; [reflexivity|]. split; [exact K|exact Ut].
Qed.
Lemma k4 x : gsl 4 x -> gno (g_str (fst x)) = 4 -> exists idle chk t a b En r pd FT r2 NT slot M, x = (GS idle (G4 a b En r pd FT r2 NT slot M) chk, t) /\ gstr_ok (G4 a b En r pd FT r2 NT slot M) /\ U 32 t.
Proof.
  intros H. destruct (gsl_ok _ _ H) as [K Ut]. destruct x as [[idle [] chk] t]; cbn [fst snd g_str gno gstr_ok] in *; try discriminate; try lia.
  do 13 eexists. split; [reflexivity|]. split; [exact K|exact Ut].
Qed.
Definition s5_of (s : gstring) : geph := match g_str s with G5 _ tauc _ _ taugps _ => [(Gtauc, V (smv tauc) 31); (Gtaugps, V (smv taugps) 30)] | _ => [] end.
Lemma k5 b x : gsl 5 x -> At b 384 (enc (gstring_fields (fst x))) ->
  (if gno (g_str (fst x)) =? 5 then do tc <- getbitg b 400 32; do tg <- getbitg b 438 22; Some [(Gtauc, V tc 31); (Gtaugps, V tg 30)] else Some []) = Some (s5_of (fst x)).
Proof.
  intros H A. destruct (gsl_ok _ _ H) as [K _]. destruct x as [[idle [] chk] t]; cbn [fst snd g_str gno gstr_ok s5_of] in *; try reflexivity.
  - destruct K as [? ?]. unfold gstring_fields in A. cbn [g_idle g_str g_check gno gstr_fields smf app Nat.sub] in A. cbn [Z.eqb Pos.eqb]. rdm. reflexivity.
  - replace (no =? 5) with false by lia. reflexivity.
Qed.
Lemma fdma_eph_ok week time sat freq b x1 x2 x3 x4 x5 : 0 <= time < 604800 -> length b = 640%nat ->
  gsl 1 x1 -> gsl 2 x2 -> gsl 3 x3 -> gsl 4 x4 -> gsl 5 x5 ->
  At b 0 (enc (gstring_fields (fst x1))) -> At b 96 (enc (gstring_fields (fst x2))) -> At b 192 (enc (gstring_fields (fst x3))) ->
  At b 288 (enc (gstring_fields (fst x4))) -> At b 384 (enc (gstring_fields (fst x5))) ->
  At b 480 (enc [(32 # snd x1)]) -> At b 512 (enc [(32 # snd x2)]) -> At b 544 (enc [(32 # snd x3)]) -> At b 576 (enc [(32 # snd x4)]) ->
  fdma_eph week time sat freq b = Some (fdma_of sat freq (gday week time) (gtod week time) (Some x1, Some x2, Some x3, Some x4, Some x5)).
Proof.
  intros Ht Lb S1 S2 S3 S4 S5 A1 A2 A3 A4 A5 T1 T2 T3 T4. unfold fdma_eph.
  assert (I1 : getu b 1 4 = Some (gno (g_str (fst x1)))) by (apply (gid b 0); [exact A1|now apply (gsl_ok 1)]). rewrite I1. clear I1.
  assert (I1 : getu b (96 + 1) 4 = Some (gno (g_str (fst x2)))) by (apply (gid b 96); [exact A2|now apply (gsl_ok 2)]). rewrite I1. clear I1.
  assert (I1 : getu b (96 * 2 + 1) 4 = Some (gno (g_str (fst x3)))) by (apply (gid b 192); [exact A3|now apply (gsl_ok 3)]). rewrite I1. clear I1.
  assert (I1 : getu b (96 * 3 + 1) 4 = Some (gno (g_str (fst x4)))) by (apply (gid b 288); [exact A4|now apply (gsl_ok 4)]). rewrite I1. clear I1.
  assert (I1 : getu b (96 * 4 + 1) 4 = Some (gno (g_str (fst x5)))) by (apply (gid b 384); [exact A5|now apply (gsl_ok 5)]). rewrite I1. clear I1.
  cbn [bind].
  destruct (gsl_ok 1 x1 S1) as [_ U1]. destruct (gsl_ok 2 x2 S2) as [_ U2]. destruct (gsl_ok 3 x3 S3) as [_ U3]. destruct (gsl_ok 4 x4 S4) as [_ U4].
  assert (I1 : getu b 480 32 = Some (snd x1)) by (apply (getu_u b 480 _ 480 32 _ T1 eq_refl eq_refl U1)). rewrite I1. clear I1.
  assert (I1 : getu b 512 32 = Some (snd x2)) by (apply (getu_u b 512 _ 512 32 _ T2 eq_refl eq_refl U2)). rewrite I1. clear I1.
  assert (I1 : getu b 544 32 = Some (snd x3)) by (apply (getu_u b 544 _ 544 32 _ T3 eq_refl eq_refl U3)). rewrite I1. clear I1.
  assert (I1 : getu b 576 32 = Some (snd x4)) by (apply (getu_u b 576 _ 576 32 _ T4 eq_refl eq_refl U4)). rewrite I1. clear I1.
  cbn [bind]. rewrite (k5 b x5 S5 A5). clear T1 T2 T3 T4 U1 U2 U3 U4.
  destruct (gsl_no 1 x1 S1) as [N1|N1]; [|destruct x1 as [s1 t1]; cbn [fst fdma_of] in *; rewrite N1; destruct x2, x3, x4; reflexivity].
  destruct (gsl_no 2 x2 S2) as [N2|N2].
  2:{ rewrite N2, orb_true_r. destruct x1 as [s1 t1]; destruct x2 as [s2 t2]; cbn [fst] in *; destruct x3, x4. cbn [gno Z.eqb Pos.eqb negb orb fdma_of]. rewrite N2. now destruct (g_str s1). }
  destruct (gsl_no 3 x3 S3) as [N3|N3].
  2:{ rewrite N3. cbn [gno Z.eqb Pos.eqb negb]. rewrite orb_true_r. destruct x1 as [s1 t1]; destruct x2 as [s2 t2]; destruct x3 as [s3 t3]; cbn [fst] in *; destruct x4. cbn [orb fdma_of]. rewrite N3. destruct (g_str s1), (g_str s2); reflexivity. }
  destruct (gsl_no 4 x4 S4) as [N4|N4].
  2:{ rewrite N4. cbn [gno Z.eqb Pos.eqb negb]. rewrite orb_true_r. destruct x1 as [s1 t1]; destruct x2 as [s2 t2]; destruct x3 as [s3 t3]; destruct x4 as [s4 t4]; cbn [fst] in *. cbn [orb fdma_of]. rewrite N4.
      destruct (g_str s1), (g_str s2); try reflexivity; destruct (g_str s3); reflexivity. }
  rewrite N1, N2, N3, N4. cbn [Z.eqb Pos.eqb negb orb].
  destruct (k1 x1 S1 N1) as (i1 & c1 & t1 & r1 & pa & tkh & tkm & tks & vx & ax & px & -> & K1 & _).
  destruct (k2 x2 S2 N2) as (i2 & c2 & t2 & Bn & pb & tb & r2 & vy & ay & py & -> & K2 & _).
  destruct (k3 x3 S3 N3) as (i3 & c3 & t3 & pc & gm & r3 & p0 & ln & vz & az & pz & -> & K3 & _).
  destruct (k4 x4 S4 N4) as (i4 & c4 & t4 & tn & dtn & En & r4 & pd & FT & r5 & NT & slot & M & -> & K4 & _).
  cbn [fst snd fdma_of g_str]. clear N1 N2 N3 N4 S1 S2 S3 S4.
  assert (Q : (negb (t4 - t3 =? 2) || negb (t3 - t2 =? 2) || negb (t2 - t1 =? 2)) = negb ((t2 =? t1 + 2) && (t3 =? t1 + 4) && (t4 =? t1 + 6))) by (clear; lia).
  rewrite Q. clear Q. destruct ((t2 =? t1 + 2) && (t3 =? t1 + 4) && (t4 =? t1 + 6)) eqn:Q; cbn [negb]; [|reflexivity]. clear Q.
  cbn [gstr_ok] in *. unfold vap_ok in *. destruct K1 as (? & Hh & Hm & Hs & ? & ? & ?). destruct K2 as (? & ? & Hb & ? & ? & ?). destruct K3 as (? & ? & ? & ? & ? & ?). destruct K4 as (? & ? & ? & ? & ? & ?).
  assert (U 5 tkh) by (unfold U; clear - Hh; lia). assert (U 6 tkm) by (unfold U; clear - Hm; lia). assert (U 7 tb) by (unfold U; clear - Hb; lia).
  unfold gstring_fields in *. cbn [g_idle g_str g_check gno gstr_fields smf app Nat.sub fst snd] in *. clear A5 S5.
  rdm. cbn [bind]. rewrite !Z.shiftl_mul_pow2 by (clear; lia). change (2 ^ 7) with 128. change (2 ^ 6) with 64. change (2 ^ 5) with 32. change (2 ^ 4) with 16. change (2 ^ 2) with 4.
  rewrite !gday_eq; [|exact Ht|clear - Hb; lia|exact Ht|clear - Hh Hm Hs; unfold U in Hs; lia].
  rewrite (Z.mul_comm M), (Z.mul_comm pd), (Z.mul_comm pc), (Z.mul_comm pb), (Z.mul_comm pa), (Z.mul_comm tkh), (Z.mul_comm tkm), (Z.mul_comm tks), (Z.mul_comm tb).
  unfold km, s5_of. destruct x5 as [[i5 s5 c5] t5]. cbn [fst g_str].
  replace (gtod week time (900 * tb - 10800) - gday week time) with (glo_day (900 * tb - 10800) (time mod 86400)) by (unfold gtod; clear; lia).
  reflexivity.
Qed.
Lemma fdma_any h e : Forall fev_ok h -> fev_ok e ->
  exists d d', ffeeds h [] = Some d /\ ffeed e d = Some (d', gres e (fun k => last_of (fwant (fe_prn e) k) (h ++ [e]))).
Proof.
  unfold ffeeds. apply (kany ffeed (dbuf 80) zset fe_prn (fun q => 1 <= q <= 32) fwant fev_ok (fun k => 1 <= k <= 5) 640 gholds ggs gres).
  - intros q b d. apply dbuf_same.
  - intros p q b d _ _ H. now apply dbuf_other.
  - intros x [H _]. exact H.
  - intros x q k _ H. unfold fwant. now replace (fe_prn x =? q) with false by lia.
  - intros x q k m (_ & Ht & H). unfold fwant. destruct ((fe_prn x =? q) && (gno (g_str (fe_str x)) =? k)) eqn:Q; [|discriminate]. intros [= <-]. split; [exact H|]. cbn [fst snd]. split; [lia|exact Ht].
  - intros x L L' H. unfold gres. now rewrite !H.
  - intros x d b L (Hq & Ht & Hs) Eb Lb HL HA L'. unfold ffeed, decode_glo_fdma. destruct (sat2prn_prn2sat GLO (fe_prn x) Hq) as [Es _]. rewrite Es. cbv beta iota.
    destruct x as [q week time freq s rest]. cbn [fe_prn fe_week fe_time fe_freq fe_str fe_rest] in *. pose proof (gno_range s Hs) as Hn. pose proof (gwid s) as W.
    assert (G : getu (enc (gstring_fields s) ++ rest) 1 4 = Some (gno (g_str s))).
    { apply (gid _ 0); [exists [], rest; split; reflexivity|exact Hs]. }
    rewrite G. cbn [bind]. unfold gres. cbn [fe_prn fe_week fe_time fe_freq fe_str]. set (n := gno (g_str s)) in *. unfold U in Hn. change (2 ^ 4) with 16 in Hn.
    destruct ((n =? 0) || (n >? 5)) eqn:Q.
    + left. replace ((1 <=? n) && (n <=? 5)) with false by lia. split; [reflexivity|]. intros k Hk. unfold fwant. cbn [fe_prn fe_str]. fold n.
      replace (n =? k) with false by lia. now rewrite andb_false_r.
    + right. replace ((1 <=? n) && (n <=? 5)) with true by lia. unfold dbuf in Eb. injection Eb as Eb. rewrite Eb.
      replace (Z.to_nat ((n - 1) * 12) * 8)%nat with (96 * Z.to_nat (n - 1))%nat by lia.
      rewrite copy_splice by (rewrite ?app_length, ?W; lia).
      assert (E : slice (enc (gstring_fields s) ++ rest) 0 96 = enc (gstring_fields s)).
      { apply slice_at_n; [exists [], rest; split; reflexivity|exact W]. }
      rewrite E. clear E. cbn [bind]. set (b1 := splice b (96 * Z.to_nat (n - 1)) (enc (gstring_fields s))).
      assert (L1 : length b1 = 640%nat) by (unfold b1; rewrite splice_length; lia).
      replace (8 * (60 + Z.to_nat (n - 1) * 4))%nat with (480 + 32 * Z.to_nat (n - 1))%nat by lia.
      rewrite (putu_ok b1 _ 32 time); [|rewrite L1; lia|change (2 ^ Z.of_nat 32) with 4294967296; lia]. cbn [bind].
      set (b2 := splice b1 (480 + 32 * Z.to_nat (n - 1)) (bitsof 32 time)).
      assert (L2 : length b2 = 640%nat) by (unfold b2; rewrite splice_length; [exact L1|rewrite bitsof_length; lia]).
      assert (A2 : forall k, 1 <= k <= 5 -> gholds b2 k (L' k)).
      { intros k Hk. unfold L', fwant. cbn [fe_prn fe_str fe_time]. rewrite Z.eqb_refl. cbn [andb]. fold n. destruct (Z.eqb_spec n k) as [<-|Hne].
        - split; cbn [gor fst snd].
          + apply At_keep; [apply splice_at; lia|rewrite bitsof_length; lia|rewrite bitsof_length, W; lia].
          + cbn [enc flat_map fst snd]. rewrite app_nil_r. apply splice_at. rewrite bitsof_length. lia.
        - destruct (HA k Hk) as [H1 H2]. split.
          + apply At_keep; [apply At_keep; [exact H1|lia|rewrite gwid; lia]|rewrite bitsof_length; lia|rewrite bitsof_length, gwid; lia].
          + apply At_keep; [apply At_keep; [exact H2|lia|rewrite enc_length; change (fwidth [(32 # snd (gor (L k)))]) with 32%nat; lia]|rewrite bitsof_length; lia|].
            rewrite bitsof_length, enc_length. change (fwidth [(32 # snd (gor (L k)))]) with 32%nat. lia. }
      assert (GL : forall k, gsl k (gor (L' k))).
      { intros k. destruct (L' k) as [m|] eqn:QL; [left|now right]. revert QL. unfold L', fwant. cbn [fe_prn fe_str fe_time]. rewrite Z.eqb_refl. cbn [andb]. fold n. destruct (Z.eqb_spec n k) as [<-|Hne].
        - intros [= <-]. cbn [gor]. split; [exact Hs|]. split; [reflexivity|exact Ht].
        - apply HL. }
      exists b2. rewrite <- gor_of. rewrite (fdma_eph_ok week time _ freq b2 (gor (L' 1)) (gor (L' 2)) (gor (L' 3)) (gor (L' 4)) (gor (L' 5)) Ht L2);
        [cbn [bind]; split; [reflexivity|split; [exact L2|exact A2]]| apply GL | apply GL | apply GL | apply GL | apply GL
        | apply (A2 1); lia | apply (A2 2); lia | apply (A2 3); lia | apply (A2 4); lia | apply (A2 5); lia | apply (A2 1); lia | apply (A2 2); lia | apply (A2 3); lia | apply (A2 4); lia].
  - intros q Hq. exists (zbytes 80). split; [reflexivity|]. split; [apply zbytes_len|]. intros k Hk. split; cbn [gor fst snd].
    + assert (E : enc (gstring_fields gnone) = repeat false 96) by (vm_compute; reflexivity). rewrite E. apply zeros_at. lia.
    + change (enc [(32 # 0)]) with (repeat false 32). apply zeros_at. lia.
Qed.
