(** GLONASS CDMA: messages kept by satellite. *)
From Verif Require Import SatModel SatProofs TimeModel TimeSpec TimeProofs TimeAdjust CssrState CssrFacts RawModel RawSpec RawFacts RawGal RawLnav RawProofs NavModel NavSpec NavFacts GloModel GloSpec GloFacts.
From Verif Require Import Base BaseFacts FieldFacts.
From Coq Require Import ZifyBool ZifyNat.
Notation length := List.length.
Open Scope Z_scope.

(** L1OC: the last six bits of the second velocity are not kept *)
Definition cutv (x : band) (v : smag) : smag := match x with L1 => Sm (neg v) (64 * (mag v / 64)) | L3 => v end.
Definition cutm (x : band) (m : kmsg) : kmsg := match k_body m with K11 px py pz vx vy => KM (k_serv m) (K11 px py pz vx (cutv x vy)) | _ => m end.
Definition kzero (x : band) : list field := [(6 # 0)] ++ serv_fields x (SV 0 0 0 0 0 0 0 0) ++ kbody_fields (K16 0 0 0 0 0 0 0 0).
Definition kfl (x : band) (o : option kmsg) : list field := match o with Some m => kmsg_fields x m | None => kzero x end.
Definition koff (k : Z) : nat := match k with 10 => 0%nat | 11 => 256%nat | 12 => 512%nat | 16 => 768%nat | _ => 1024%nat end.
Definition kok (k : Z) : Prop := k = 10 \/ k = 11 \/ k = 12 \/ k = 16.
Definition kgs (x : band) (k : Z) (m : kmsg) : Prop := kmsg_ok x m /\ kno (k_body m) = k.
Definition ocut (x : band) (o : option kmsg) : option kmsg := match o with Some m => Some (cutm x m) | None => None end.
Definition kholds (x : band) (b : bits) (k : Z) (o : option kmsg) : Prop :=
  At b (koff k) (enc (kfl x (ocut x o))) /\ (x = L1 -> At b (koff k + 222) (repeat false 6)).
Definition kw (x : band) (q k : Z) (e : kev) : option kmsg := match x with L1 => if k =? 16 then None else kwant q k e | L3 => kwant q k e end.
Definition kemit (x : band) (n : Z) : bool := (n =? 10) || (n =? 11) || (n =? 12) || match x with L1 => false | L3 => (n =? 16) || (n =? 25) end.
Definition kres (x : band) (e : kev) (L : Z -> option kmsg) : option geph :=
  if kemit x (kno (k_body (ke_msg e))) then cdma_of x (prn2sat GLO (ke_prn e)) (fun v => smv (cutv x v)) (L 10, L 11, L 12, L 16) else None.
Lemma kwid x o : (length (enc (kfl x o)) <= 228)%nat.
Proof. rewrite enc_length. destruct x; destruct o as [[sv []]|]; cbv -[Nat.le]; lia. Qed.
Lemma cut_len x m : length (enc (kmsg_fields x (cutm x m))) = length (enc (kmsg_fields x m)).
Proof. rewrite !enc_length. destruct x; destruct m as [sv []]; reflexivity. Qed.
Lemma kno_range m x : kmsg_ok x m -> U 6 (kno (k_body m)).
Proof. intros [_ H]. destruct (k_body m); cbn [kbody_ok kno] in *; unfold U; lia. Qed.
Lemma cut_no x m : kno (k_body (cutm x m)) = kno (k_body m).
Proof. destruct m as [sv []]; reflexivity. Qed.
Lemma cut_ok x k m : kgs x k m -> kgs x k (cutm x m).
Proof.
  intros [[Hs Hb] E]. split; [|now rewrite cut_no]. destruct m as [sv []]; try (split; assumption). cbn [cutm k_body kbody_ok] in *. split; [exact Hs|]. cbn [k_body kbody_ok].
  destruct Hb as (A & B & C & D & [E1 E2]). repeat (split; [assumption|]). destruct x; [|split; assumption]. cbn [cutv]. split; [exact E1|]. cbn [mag]. unfold U in *.
  pose proof (Z.mod_pos_bound (mag vy) 64 ltac:(lia)). pose proof (Z.div_mod (mag vy) 64 ltac:(lia)). split; [|lia].
  pose proof (Z.div_pos (mag vy) 64). lia.
Qed.
Lemma cut_of x sat a b c d : cdma_of x sat (fun v => smv (cutv x v)) (a, b, c, d) = cdma_of x sat smv (ocut x a, ocut x b, ocut x c, ocut x d).
Proof.
  destruct a as [[s1 []]|]; try reflexivity; destruct b as [[s2 []]|]; try reflexivity; destruct c as [[s3 []]|]; try reflexivity; destruct d as [[s4 []]|]; reflexivity.
Qed.
(** what is kept of a message *)
Lemma kept1 b off m rest : At b off (firstn 222 (enc (kmsg_fields L1 m) ++ rest)) -> At b (off + 222) (repeat false 6) ->
  (222 <= length (enc (kmsg_fields L1 m) ++ rest))%nat -> At b off (enc (kmsg_fields L1 (cutm L1 m))).
Proof.
  intros A Z6 Hl. destruct m as [sv bd]. destruct bd as [| px py pz vx vy| | |];
  try (cbn [cutm k_body]; match type of A with At _ _ (firstn _ (enc ?f ++ _)) => set (fl := f) in *; assert (W : (length (enc fl) <= 222)%nat) by (rewrite enc_length; cbv -[Nat.le]; lia) end;
       rewrite firstn_app, firstn_all2 in A by exact W; apply At_app in A; exact (proj1 A)).
  cbn [cutm k_body k_serv cutv] in *.
  set (F := [(6 # 11)] ++ serv_fields L1 sv ++ smf 40 px ++ smf 40 py ++ smf 40 pz ++ smf 35 vx ++ [(1 # neg vy)]).
  assert (E1 : enc (kmsg_fields L1 (KM sv (K11 px py pz vx vy))) = (enc F ++ bitsof 28 (mag vy / 64)) ++ bitsof 6 (mag vy)).
  { change (kmsg_fields L1 (KM sv (K11 px py pz vx vy))) with (F ++ [(34 # mag vy)]). rewrite enc_app, <- app_assoc. f_equal.
    cbn [enc flat_map fst snd]. rewrite app_nil_r. exact (bitsof_two 28 6 (mag vy)). }
  assert (E2 : enc (kmsg_fields L1 (KM sv (K11 px py pz vx (Sm (neg vy) (64 * (mag vy / 64)))))) = (enc F ++ bitsof 28 (mag vy / 64)) ++ repeat false 6).
  { change (kmsg_fields L1 (KM sv (K11 px py pz vx (Sm (neg vy) (64 * (mag vy / 64)))))) with (F ++ [(34 # 64 * (mag vy / 64))]). rewrite enc_app, <- app_assoc. f_equal.
    cbn [enc flat_map fst snd]. rewrite app_nil_r, (bitsof_two 28 6). f_equal.
    - f_equal. change (2 ^ Z.of_nat 6) with 64. rewrite (Z.mul_comm 64), Z.div_mul by discriminate. reflexivity.
    - change (repeat false 6) with (bitsof 6 0). symmetry. apply (bitsof_mod_eq 6 (64 * (mag vy / 64)) 0). change (2 ^ Z.of_nat 6) with 64. rewrite (Z.mul_comm 64), Z.mod_mul by discriminate. reflexivity. }
  assert (W : length (enc F ++ bitsof 28 (mag vy / 64)) = 222%nat) by (rewrite app_length, bitsof_length, enc_length; reflexivity).
  rewrite E2. rewrite E1, <- app_assoc in A. rewrite firstn_app, W, Nat.sub_diag, firstn_O, app_nil_r, firstn_all2 in A by (rewrite W; apply le_n).
  apply At_app. split; [exact A|]. now rewrite W.
Qed.
Lemma kid x b off o : At b off (enc (kfl x o)) -> (forall m, o = Some m -> kmsg_ok x m) -> getu b off 6 = Some (match o with Some m => kno (k_body m) | None => 0 end).
Proof.
  intros A H. destruct o as [m|]; cbn [kfl] in A.
  - pose proof (kno_range m x (H m eq_refl)) as R. unfold kmsg_fields in A. set (z := serv_fields x _ ++ _) in A. clearbody z. cbn [app] in A.
    apply (getu_u b off _ off 6 _ A); [lia| |exact R]. now rewrite Nat.sub_diag.
  - unfold kzero in A. set (z := serv_fields x _ ++ _) in A. clearbody z. cbn [app] in A.
    apply (getu_u b off _ off 6 _ A); [lia| |split; [discriminate|reflexivity]]. now rewrite Nat.sub_diag.
Qed.
Lemma q10 x o : (forall m, o = Some m -> kgs x 10 m) -> o = None \/ exists sv N4 Nt M PS tb Ee Et Re Rt ue ut taun gamn beta tauc dtauc,
  o = Some (KM sv (K10 N4 Nt M PS tb Ee Et Re Rt ue ut taun gamn beta tauc dtauc)) /\ serv_ok x sv /\ kbody_ok (K10 N4 Nt M PS tb Ee Et Re Rt ue ut taun gamn beta tauc dtauc).
Proof.
  intros H. destruct o as [m|]; [right|now left]. destruct (H m eq_refl) as [[A B] E]. destruct m as [sv []]; cbn [k_body k_serv kno kbody_ok] in *; try discriminate; try lia.
  do 17 eexists. split; [reflexivity|]. split; [exact A|exact B].
Qed.
Lemma q11 x o : (forall m, o = Some m -> kgs x 11 m) -> o = None \/ exists sv px py pz vx vy, o = Some (KM sv (K11 px py pz vx vy)) /\ kbody_ok (K11 px py pz vx vy).
Proof.
  intros H. destruct o as [m|]; [right|now left]. destruct (H m eq_refl) as [[A B] E]. destruct m as [sv []]; cbn [k_body k_serv kno kbody_ok] in *; try discriminate; try lia.
  do 6 eexists. split; [reflexivity|exact B].
Qed.
Lemma q12 x o : (forall m, o = Some m -> kgs x 12 m) -> o = None \/ exists sv vz ax ay az dx dy dz isc taugps,
  o = Some (KM sv (K12 vz ax ay az dx dy dz isc taugps)) /\ kbody_ok (K12 vz ax ay az dx dy dz isc taugps).
Proof.
  intros H. destruct o as [m|]; [right|now left]. destruct (H m eq_refl) as [[A B] E]. destruct m as [sv []]; cbn [k_body k_serv kno kbody_ok] in *; try discriminate; try lia.
  do 10 eexists. split; [reflexivity|exact B].
Qed.
Lemma q16 x o : (forall m, o = Some m -> kgs x 16 m) -> exists sv n tin psi sn wmax win dw tau1 tau2,
  kfl x o = [(6 # n)] ++ serv_fields x sv ++ kbody_fields (K16 tin psi sn wmax win dw tau1 tau2) /\ kbody_ok (K16 tin psi sn wmax win dw tau1 tau2) /\
  turn_of o = [(Gpsi, Sc psi 14); (Gwin, Sc win 26); (Gwmax, Sc wmax 26); (Gdw, Sc dw 30); (Gsn, I sn); (Gtin, V tin 5); (Gtau1, V tau1 5); (Gtau2, V tau2 5)].
Proof.
  intros H. destruct o as [m|].
  - destruct (H m eq_refl) as [[A B] E]. destruct m as [sv []]; cbn [k_body k_serv kno kbody_ok] in *; try discriminate; try lia.
    exists sv, 16, tin, psi, sn, wmax, win, dw, tau1, tau2. split; [reflexivity|]. split; [exact B|reflexivity].
  - exists (SV 0 0 0 0 0 0 0 0), 0, 0, 0, 0, 0, 0, 0, 0, 0. split; [reflexivity|]. split; [cbn [kbody_ok]; unfold U; lia|reflexivity].
Qed.
Lemma toes_eq t : 86400 * gps0 <= t -> snd (time2gpst 1 (GT t 0)) = (t - 86400 * gps0) mod 604800.
Proof.
  intros H. pose proof (gps_week_of 1 (GT t 0) ltac:(lia) ltac:(unfold normal; cbn [gs]; lia) H) as G. destruct (time2gpst 1 (GT t 0)) as [w tow]. destruct G as (E & B & _).
  unfold ticks in E. cbn [gt gs snd] in *. fold gps0 in E. apply Z.mod_unique with w; lia.
Qed.
Lemma lc_pos u : 0 <= leap_count 1 u.
Proof. unfold leap_count. lia. Qed.
Lemma moscow_toes N4 Nt sod : 1 <= N4 <= 26 -> 1 <= Nt -> 0 <= sod < 86400 ->
  snd (time2gpst 1 (moscow N4 Nt sod)) = (gt (moscow N4 Nt sod) - 86400 * gps0) mod 604800.
Proof.
  intros H1 H2 H3. unfold moscow, utc. apply toes_eq. pose proof (lc_pos (86400 * (day_number (1996 + 4 * (N4 - 1)) 1 1 + Nt - 1) - 10800 + sod)) as L.
  assert (G : forallb (fun n => gps0 + 2 <=? day_number (1996 + 4 * (n - 1)) 1 1) (TimeProofs.zrange 1 26) = true) by (vm_compute; reflexivity).
  pose proof (proj1 (forallb_forall _ _) G N4) as F. rewrite TimeProofs.zrange_in in F. change (Z.of_nat 26) with 26 in F. specialize (F ltac:(clear - H1; lia)). cbv beta in F.
  set (y := day_number _ 1 1) in *. clearbody y. clear G. set (g := gps0) in *. clearbody g. cbn [gt]. lia.
Qed.
Lemma lor4 a b : U 2 a -> U 2 b -> Z.lor (Z.shiftl a 2) b = 4 * a + b.
Proof.
  unfold U. change (2 ^ 2) with 4. intros A B. assert (C : a = 0 \/ a = 1 \/ a = 2 \/ a = 3) by lia. assert (D : b = 0 \/ b = 1 \/ b = 2 \/ b = 3) by lia.
  destruct C as [->|[->|[->| ->]]]; destruct D as [->|[->|[->| ->]]]; reflexivity.
Qed.
Definition stype (x : band) : Z := match x with L1 => 1 | L3 => 3 end.
Lemma cdma_eph_ok x sat b o10 o11 o12 o16 : (forall m, o10 = Some m -> kgs x 10 m) -> (forall m, o11 = Some m -> kgs x 11 m) ->
  (forall m, o12 = Some m -> kgs x 12 m) -> (forall m, o16 = Some m -> kgs x 16 m) ->
  At b 0 (enc (kfl x o10)) -> At b 256 (enc (kfl x o11)) -> At b 512 (enc (kfl x o12)) -> At b 768 (enc (kfl x o16)) ->
  cdma_eph sat (stype x) b = Some (cdma_of x sat smv (o10, o11, o12, o16)).
Proof.
  intros H10 H11 H12 H16 A10 A11 A12 A16. unfold cdma_eph.
  rewrite (kid x b 0 o10 A10) by (intros m Em; apply (H10 m Em)). rewrite (kid x b 256 o11 A11) by (intros m Em; apply (H11 m Em)). rewrite (kid x b 512 o12 A12) by (intros m Em; apply (H12 m Em)).
  cbn [bind]. apply q10 in H10. apply q11 in H11. apply q12 in H12. apply q16 in H16.
  destruct H10 as [->|(s1 & N4 & Nt & M & PS & tb & Ee & Et & Re & Rt & ue & ut & taun & gamn & beta & tauc & dtauc & -> & Ks & K10)]; [reflexivity|].
  destruct H11 as [->|(s2 & px & py & pz & vx & vy & -> & K11)]; [reflexivity|].
  destruct H12 as [->|(s3 & vz & ax & ay & az & dx & dy & dz & isc & tg & -> & K12)]; [reflexivity|].
  destruct H16 as (s4 & n16 & tin & psi & sn & wmax & win & dw & tau1 & tau2 & E16 & K16 & ET). rewrite E16 in A16. clear E16.
  cbn [k_body kno Z.eqb Pos.eqb negb orb]. unfold cdma_of. rewrite ET. clear ET. cbn [k_body k_serv].
  destruct Ks as (? & ? & ? & Kt & Kt2). cbn [kbody_ok] in *. destruct K10 as [(Hn & Ht & ? & Htb & ? & ? & HRe & HRt) (? & ? & ? & ? & ? & ? & ?)].
  destruct K11 as (? & ? & ? & ? & ?). destruct K12 as (? & ? & ? & ? & ? & ? & ? & ? & ?). destruct K16 as (? & ? & ? & ? & ? & ? & ? & ?).
  assert (U 5 N4) by (unfold U; clear - Hn; lia). assert (U 11 Nt) by (unfold U; clear - Ht; lia). assert (U 10 tb) by (unfold U; clear - Htb; lia).
  destruct s1 as [v1 v2 v3 v4 v5 v6 v7 ts]. cbn [s_id s_svh s_valid s_P1 s_P2 s_KP s_A s_ts] in *.
  assert (T1 : gep2time 1 N4 Nt (tb * 90) = moscow N4 Nt (90 * tb)) by (rewrite (Z.mul_comm tb); apply gep_moscow; [exact Hn|clear - Ht; lia|clear - Htb; lia]).
  assert (T2 : gep2time 1 N4 Nt (ts * tick x) = moscow N4 Nt (tick x * ts)) by (rewrite (Z.mul_comm ts); apply gep_moscow; [exact Hn|clear - Ht; lia|destruct x; cbn [tick] in *; clear - Kt Kt2; lia]).
  assert (T3 : snd (time2gpst 1 (moscow N4 Nt (90 * tb))) = (gt (moscow N4 Nt (90 * tb)) - 86400 * gps0) mod 604800) by (apply moscow_toes; [exact Hn|clear - Ht; lia|clear - Htb; lia]).
  set (toe := moscow N4 Nt (90 * tb)) in *. set (tof := moscow N4 Nt (tick x * ts)) in *. clearbody toe tof.
  unfold kfl, kmsg_fields in *. cbn [k_body k_serv kno] in *.
  destruct x; cbn [tick stype serv_fields s_id s_svh s_valid s_P1 s_P2 s_KP s_A s_ts kbody_fields] in *; unfold smf in *; cbn [app Nat.sub] in *; cbn [Z.eqb Pos.eqb].
  - assert (U 16 ts) by (unfold U; clear - Kt Kt2; lia).
    assert (S : (do svid <- getu b 6 6; do svh <- getu b 12 1; do valid <- getu b 13 1; do P2 <- getu b 18 1; do ts0 <- getu b 22 16; Some (ts0, svh, valid, P2)) = Some (ts, v2, v3, v5)) by (rds; reflexivity).
    rewrite S. clear S. cbn [bind]. cbv beta iota. rdm. rewrite T1, T2, T3, lor4 by assumption. reflexivity.
  - assert (U 15 ts) by (unfold U; clear - Kt Kt2; lia).
    assert (S : (do ts0 <- getu b 6 15; do svid <- getu b 21 6; do svh <- getu b 27 1; do valid <- getu b 28 1; do P2 <- getu b 33 1; Some (ts0, svh, valid, P2)) = Some (ts, v2, v3, v5)) by (rds; reflexivity).
    rewrite S. clear S. cbn [bind]. cbv beta iota. rdm. rewrite T1, T2, T3, lor4 by assumption. reflexivity.
Qed.
Definition glen (x : band) : nat := match x with L1 => 222 | L3 => 256 end.
Definition gpre (x : band) : nat := match x with L1 => 12 | L3 => 20 end.
Lemma kstep_one x q m rest b (L : Z -> option kmsg) : 1 <= q <= 32 -> kmsg_ok x m -> (glen x <= length (enc (kmsg_fields x m) ++ rest))%nat -> length b = 1280%nat ->
  kemit x (kno (k_body m)) = true -> (forall k m, L k = Some m -> kgs x k m) -> (x = L1 -> L 16 = None) -> (forall k, kok k -> kholds x b k (L k)) ->
  let n := kno (k_body m) in
  let L' k := if n =? k then Some m else L k in
  let b2 := splice b (koff n) (firstn (glen x) (enc (kmsg_fields x m) ++ rest)) in
  cdma_eph (prn2sat GLO q) (stype x) b2 = Some (cdma_of x (prn2sat GLO q) (fun v => smv (cutv x v)) (L' 10, L' 11, L' 12, L' 16)) /\
  length b2 = 1280%nat /\ forall k, kok k -> kholds x b2 k (L' k).
Proof.
  intros Hq Hm Hl Lb He HL H16 HA n L' b2. assert (Hn : n = 10 \/ n = 11 \/ n = 12 \/ (x = L3 /\ (n = 16 \/ n = 25))).
  { unfold kemit in He. fold n in He. destruct x; [lia|]. assert (C : n = 10 \/ n = 11 \/ n = 12 \/ n = 16 \/ n = 25) by lia. destruct C as [C|[C|[C|[C|C]]]]; auto 6. }
  assert (Ko : (koff n + 256 <= 1280)%nat) by (destruct Hn as [->|[->|[->|[_ [->| ->]]]]]; cbn; lia).
  assert (Lw : length (firstn (glen x) (enc (kmsg_fields x m) ++ rest)) = glen x) by (apply firstn_length_le; exact Hl).
  assert (Hg : (glen x <= 256)%nat) by (destruct x; cbn; lia).
  assert (L2 : length b2 = 1280%nat) by (unfold b2; rewrite splice_length; [exact Lb|lia]).
  assert (A2 : forall k, kok k -> kholds x b2 k (L' k)).
  { intros k Hk. unfold L'. destruct (Z.eqb_spec n k) as [<-|Hne].
    - assert (A : At b2 (koff n) (firstn (glen x) (enc (kmsg_fields x m) ++ rest))) by (apply splice_at; lia).
      destruct (HA n Hk) as [_ HZ].
      assert (HZ2 : x = L1 -> At b2 (koff n + 222) (repeat false 6)).
      { intros Ex. apply At_keep; [apply HZ; exact Ex|lia|]. right. rewrite Lw. subst x. cbn [glen]. lia. }
      split; [|exact HZ2]. cbn [ocut kfl]. destruct x.
      + apply (kept1 b2 (koff n) m rest A (HZ2 eq_refl) Hl).
      + assert (W : (length (enc (kmsg_fields L3 (cutm L3 m))) <= 228)%nat) by apply (kwid L3 (Some (cutm L3 m))).
        assert (E : cutm L3 m = m) by (destruct m as [sv []]; reflexivity). rewrite E in *. cbn [glen] in A.
        rewrite firstn_app, firstn_all2 in A by lia. apply At_app in A. exact (proj1 A).
    - assert (Hko : (koff k + 256 <= koff n \/ koff n + 256 <= koff k)%nat).
      { destruct Hk as [->|[->|[->| ->]]]; destruct Hn as [->|[->|[->|[_ [->| ->]]]]]; cbn [koff]; try lia. }
      destruct (HA k Hk) as [H1 H2]. pose proof (kwid x (ocut x (L k))) as W. split.
      + apply At_keep; [exact H1|lia|lia].
      + intros Ex. apply At_keep; [apply H2; exact Ex|lia|rewrite repeat_length; lia]. }
  split; [|split; [exact L2|exact A2]].
  assert (GL : forall k m0, ocut x (L' k) = Some m0 -> kgs x k m0).
  { intros k m0. unfold L'. destruct (Z.eqb_spec n k) as [<-|Hne].
    - cbn [ocut]. intros [= <-]. apply cut_ok. split; [exact Hm|reflexivity].
    - destruct (L k) eqn:Q; [|discriminate]. cbn [ocut]. intros [= <-]. apply cut_ok. now apply HL. }
  rewrite cut_of. apply cdma_eph_ok; try (apply GL).
  - apply (A2 10). now left. - apply (A2 11). right. now left. - apply (A2 12). right. right. now left. - apply (A2 16). right. right. now right.
Qed.
Lemma khead x m rest : kmsg_ok x m -> exists fl, enc (pre_fields x ++ kmsg_fields x m) = enc (pre_fields x) ++ enc (kmsg_fields x m) /\
  At (enc (pre_fields x ++ kmsg_fields x m) ++ rest) 0 (enc (pre_fields x ++ [(6 # kno (k_body m))] ++ fl)).
Proof.
  intros _. exists (serv_fields x (k_serv m) ++ kbody_fields (k_body m)). split; [apply enc_app|]. exists [], rest. split; reflexivity.
Qed.
Lemma prn_glo q : 1 <= q <= 32 -> prn2sat GLO q = q + (prn2sat GLO 1 - 1).
Proof. intros H. unfold prn2sat. cbn. lia. Qed.
Lemma pre_len x : length (enc (pre_fields x)) = gpre x.
Proof. rewrite enc_length. destruct x; reflexivity. Qed.
Lemma kfeed_ok x e d : kev_ok x e ->
  let m := ke_msg e in let n := kno (k_body m) in let q := ke_prn e in
  (kemit x n = false /\ kfeed x e d = Some (d, None)) \/
  (kemit x n = true /\ forall b, dbuf 160 (prn2sat GLO q) d = Some b -> length b = 1280%nat ->
   let b2 := splice b (koff n) (firstn (glen x) (enc (kmsg_fields x m) ++ ke_rest e)) in
   kfeed x e d = do r <- cdma_eph (prn2sat GLO q) (stype x) b2; Some (zset (prn2sat GLO q) b2 d, r)).
Proof.
  intros (Hq & Hm & Hl) m n q. pose proof (kno_range m x Hm) as Hn. fold n in Hn.
  destruct (khead x m (ke_rest e) Hm) as (fl & E0 & A). unfold kfeed. fold (kev_bits x e). unfold kev_bits in *. fold m in Hl |- *. fold q. set (sat := prn2sat GLO q). clearbody sat.
  set (msg := enc (pre_fields x ++ kmsg_fields x m) ++ ke_rest e) in *.
  assert (Hs : slice msg (gpre x) (glen x) = firstn (glen x) (enc (kmsg_fields x m) ++ ke_rest e)).
  { unfold slice, msg. rewrite E0, <- app_assoc, skipn_app, pre_len, Nat.sub_diag, skipn_O, <- (pre_len x), skipn_all. reflexivity. }
  assert (Hm2 : (gpre x + glen x <= length msg)%nat) by (destruct x; cbn [gpre glen]; exact Hl).
  clearbody msg. fold n in A. destruct x; cbn [pre_fields app] in A; cbn [gpre glen] in *.
  - assert (G1 : getu msg 0 12 = Some 1521) by (eapply getu_u; [exact A|reflexivity|reflexivity|split; [discriminate|reflexivity]]).
    assert (G2 : getu msg 12 6 = Some n) by (eapply getu_u; [exact A|reflexivity|reflexivity|exact Hn]).
    unfold decode_glo_l1oc. rewrite G1, G2. cbn [bind Z.eqb Pos.eqb negb]. unfold kemit. rewrite orb_false_r.
    destruct ((n =? 10) || (n =? 11) || (n =? 12)) eqn:Q; cbn [negb]; [right; split; [reflexivity|]|left; split; reflexivity].
    intros b Eb Lb. unfold dbuf in Eb. injection Eb as Eb. rewrite Eb.
    assert (Es : cdma_slot n = Some (n - 10) /\ koff n = Z.to_nat ((n - 10) * 32 * 8)).
    { assert (C : n = 10 \/ n = 11 \/ n = 12) by lia. destruct C as [->|[->| ->]]; split; reflexivity. }
    destruct Es as [Es Eo]. rewrite Es. cbn [bind]. rewrite <- Eo.
    rewrite copy_splice; [|exact Hm2|rewrite Eo, Lb; lia]. cbn [bind]. rewrite Hs. reflexivity.
  - assert (G1 : getu msg 0 20 = Some 18766) by (eapply getu_u; [exact A|reflexivity|reflexivity|split; [discriminate|reflexivity]]).
    assert (G2 : getu msg 20 6 = Some n) by (eapply getu_u; [exact A|reflexivity|reflexivity|exact Hn]).
    unfold decode_glo_l3oc. rewrite G1, G2. cbn [bind Z.eqb Pos.eqb negb]. unfold kemit.
    destruct ((n =? 10) || (n =? 11) || (n =? 12) || ((n =? 16) || (n =? 25))) eqn:Q; [right; split; [reflexivity|]|left; split; [reflexivity|]].
    + intros b Eb Lb. unfold dbuf in Eb. injection Eb as Eb. rewrite Eb.
      assert (Es : exists k, cdma_slot n = Some k /\ koff n = Z.to_nat (k * 32 * 8) /\ (koff n + 256 <= 1280)%nat).
      { assert (C : n = 10 \/ n = 11 \/ n = 12 \/ n = 16 \/ n = 25) by lia.
        destruct C as [->|[->|[->|[->| ->]]]]; eexists; (split; [reflexivity|split; [reflexivity|cbn; lia]]). }
      destruct Es as (k & Es & Eo & Ho). rewrite Es, <- Eo.
      rewrite copy_splice; [|exact Hm2|rewrite Lb; lia]. cbn [bind]. rewrite Hs. reflexivity.
    + unfold cdma_slot. replace (n =? 10) with false by lia. replace (n =? 11) with false by lia. replace (n =? 12) with false by lia.
      replace (n =? 16) with false by lia. replace (n =? 25) with false by lia. reflexivity.
Qed.
Definition kgs2 (x : band) (k : Z) (m : kmsg) : Prop := kgs x k m /\ (x = L1 -> k <> 16).
Lemma kw_eq x q k e : kw x q k e = if (ke_prn e =? q) && (kno (k_body (ke_msg e)) =? k) && negb (match x with L1 => k =? 16 | L3 => false end) then Some (ke_msg e) else None.
Proof. unfold kw, kwant. destruct x; [destruct (k =? 16)|]; rewrite ?andb_false_r, ?andb_true_r; reflexivity. Qed.
Lemma cdma_any x h e : Forall (kev_ok x) h -> kev_ok x e ->
  exists d d', kfeeds x h [] = Some d /\ kfeed x e d = Some (d', kres x e (fun k => last_of (kw x (ke_prn e) k) (h ++ [e]))).
Proof.
  unfold kfeeds.
  apply (kany (kfeed x) (fun q => dbuf 160 (prn2sat GLO q)) (fun q => zset (prn2sat GLO q)) ke_prn (fun q => 1 <= q <= 32) (kw x) (kev_ok x) kok 1280 (kholds x) (kgs2 x) (kres x)).
  - intros q b d. apply dbuf_same.
  - intros p q b d Hp Hq H. apply dbuf_other. rewrite (prn_glo p Hp), (prn_glo q Hq). lia.
  - intros y [H _]. exact H.
  - intros y q k _ H. rewrite kw_eq. now replace (ke_prn y =? q) with false by lia.
  - intros y q k m (_ & H & _). rewrite kw_eq. destruct ((ke_prn y =? q) && (kno (k_body (ke_msg y)) =? k) && _) eqn:Q; [|discriminate]. intros [= <-]. split; [split; [exact H|lia]|].
    intros ->. lia.
  - intros y L L' H. unfold kres. now rewrite !H.
  - intros y d b L Hy Eb Lb HL HA L'. pose proof (kfeed_ok x y d Hy) as K. cbv zeta in K. destruct Hy as (Hq & Hm & Hl). unfold kres. set (n := kno (k_body (ke_msg y))) in *.
    destruct K as [[Em K]|[Em K]].
    + left. rewrite Em. split; [exact K|]. intros k Hk. rewrite kw_eq. fold n. unfold kok in Hk. unfold kemit in Em.
      destruct x; [destruct (n =? k) eqn:Q1; [|now rewrite andb_false_r]; destruct (k =? 16) eqn:Q2; [cbn [negb]; now rewrite andb_false_r|lia]|].
      replace (n =? k) with false by lia. now rewrite andb_false_r.
    + right. rewrite Em. specialize (K b Eb Lb).
      assert (Hl2 : (glen x <= length (enc (kmsg_fields x (ke_msg y)) ++ ke_rest y))%nat).
      { unfold kev_bits in Hl. rewrite enc_app, <- app_assoc, app_length, pre_len in Hl. destruct x; cbn [gpre glen] in *; lia. }
      assert (H16 : x = L1 -> L 16 = None).
      { intros Ex. destruct (L 16) eqn:Q; [|reflexivity]. apply HL in Q. destruct Q as [_ Q]. now destruct (Q Ex). }
      destruct (kstep_one x (ke_prn y) (ke_msg y) (ke_rest y) b L Hq Hm Hl2 Lb Em) as (S1 & S2 & S3).
      { intros k m Q. now apply HL. } { exact H16. } { exact HA. }
      fold n in S1, S2, S3. set (b2 := splice b (koff n) _) in *.
      assert (EL : forall k, L' k = if n =? k then Some (ke_msg y) else L k).
      { intros k. unfold L'. rewrite kw_eq, Z.eqb_refl. cbn [andb]. fold n. destruct (Z.eqb_spec n k) as [<-|]; [|reflexivity]. cbn [andb].
        destruct x; [|reflexivity]. unfold kemit in Em. replace (n =? 16) with false by lia. reflexivity. }
      exists b2. rewrite K, S1. cbn [bind]. split; [rewrite !EL; reflexivity|]. split; [exact S2|]. intros k Hk. rewrite EL. now apply S3.
  - intros q Hq. exists (zbytes 160). split; [reflexivity|]. split; [apply zbytes_len|]. intros k Hk. split.
    + cbn [ocut kfl]. assert (E : exists w, enc (kzero x) = repeat false w /\ (w <= 228)%nat) by (destruct x; [exists 155%nat|exists 154%nat]; (split; [vm_compute; reflexivity|lia])).
      destruct E as (w & E & Hw). rewrite E. apply zeros_at. destruct Hk as [->|[->|[->| ->]]]; cbn [koff]; lia.
    + intros _. apply zeros_at. destruct Hk as [->|[->|[->| ->]]]; cbn [koff]; lia.
Qed.
