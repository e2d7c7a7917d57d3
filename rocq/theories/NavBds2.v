(** B-CNAV on B2a and B2b: the messages kept by satellite. *)
From Verif Require Import SatModel SatProofs TimeModel TimeSpec TimeProofs CssrState CssrFacts RawModel RawSpec RawFacts RawGal RawLnav RawProofs NavModel NavSpec NavFacts NavBds.
From Verif Require Import Base BaseFacts FieldFacts.
From Coq Require Import ZifyBool ZifyNat.
Notation length := List.length.
Open Scope Z_scope.

(* ---------- whole messages copied into a slot ---------- *)
Lemma whole b msg n k : length msg = (8 * n)%nat -> length b = (8 * bytelen b)%nat -> 0 <= k -> k + Z.of_nat n <= Z.of_nat (bytelen b) ->
  copybytes (bytelen msg) msg 0 b k = Some (splice b (8 * Z.to_nat k) msg).
Proof.
  intros Hm Hb Hk Hn. destruct (bytelen_eq msg n Hm) as [-> _]. rewrite copybytes_ok by lia. do 2 f_equal. unfold slice. cbn [skipn].
  rewrite <- Hm. apply firstn_all.
Qed.
Lemma spl_in (b : bits) o (x r : bits) : (o + length (x ++ r) <= length b)%nat -> At (splice b o (x ++ r)) o x.
Proof. intros H. eapply put_at; [reflexivity|exact H]. Qed.

(* ---------- B2a ---------- *)
Definition aemp : list field := [(6 # 0); (6 # 0); (18 # 0); (258 # 0)].
(** a message of whole bytes, 40 at most *)
Definition agood (m : bmsg) (rest : bits) : Prop := U 18 (a_sow m) /\ abody_ok (a_body m) /\ exists n, length (enc (amsg_fields m) ++ rest) = (8 * n)%nat /\ (n <= 40)%nat.
Definition akey (k : Z) : Prop := k = 10 \/ k = 11 \/ k = 30 \/ k = 40.
Definition aoff (k : Z) : nat := if k =? 10 then 0%nat else if k =? 11 then 320%nat else if k =? 30 then 640%nat else 1280%nat.
Definition ano (m : bmsg) : Z := aid (a_body m).
Definition aemit (m : bmsg) : bool := existsb (Z.eqb (ano m)) [10; 11; 30; 34; 40].
Definition ares (sat : Z) (L : Z -> option bmsg) : option eph := b2a_of sat (L 10, L 11, L 30, L 40).
Lemma awidth m : length (enc (amsg_fields m)) = 288%nat.
Proof. rewrite enc_length. destruct m as [? ? []]; reflexivity. Qed.
Lemma aslot_width o : length (enc (slotf amsg_fields aemp o)) = 288%nat.
Proof. destruct o; [apply awidth|now rewrite enc_length]. Qed.
Lemma aid_range b : abody_ok b -> U 6 (aid b).
Proof. destruct b; cbn [abody_ok aid]; intros H; unfold U; lia. Qed.
Lemma a10 o : lokay agood ano 10 o -> o = None \/ exists p s a b c d e x r, o = Some (BM p s (A10 a b c d e x r)) /\ U 18 s /\ abody_ok (A10 a b c d e x r).
Proof.
  destruct o as [[p s []]|]; cbn [lokay ano aid a_body]; intros H; try (now left); right; destruct H as [(rr & H1 & H2 & _) E]; try discriminate; cbn [a_sow a_body abody_ok] in *; try lia.
  repeat eexists; apply H2 || apply H1.
Qed.
Lemma a11 o : lokay agood ano 11 o -> o = None \/ exists p s a b x r, o = Some (BM p s (A11 a b x r)) /\ U 18 s /\ abody_ok (A11 a b x r).
Proof.
  destruct o as [[p s []]|]; cbn [lokay ano aid a_body]; intros H; try (now left); right; destruct H as [(rr & H1 & H2 & _) E]; try discriminate; cbn [a_sow a_body abody_ok] in *; try lia.
  repeat eexists; apply H2 || apply H1.
Qed.
Lemma a30 o : lokay agood ano 30 o -> o = None \/ exists p s a x b c d e f r, o = Some (BM p s (A30 a x b c d e f r)) /\ U 18 s /\ abody_ok (A30 a x b c d e f r).
Proof.
  destruct o as [[p s []]|]; cbn [lokay ano aid a_body]; intros H; try (now left); right; destruct H as [(rr & H1 & H2 & _) E]; try discriminate; cbn [a_sow a_body abody_ok] in *; try lia.
  repeat eexists; apply H2 || apply H1.
Qed.
Lemma a40 o : lokay agood ano 40 o -> o = None \/ exists p s a b x r, o = Some (BM p s (A40 a b x r)) /\ U 18 s /\ abody_ok (A40 a b x r).
Proof.
  destruct o as [[p s []]|]; cbn [lokay ano aid a_body]; intros H; try (now left); right; destruct H as [(rr & H1 & H2 & _) E]; try discriminate; cbn [a_sow a_body abody_ok] in *; try lia.
  repeat eexists; apply H2 || apply H1.
Qed.
(** the kind, a number that is the key when there is a message, and the time *)
Lemma a_top b o k (x : option bmsg) : lokay agood ano k x -> U 6 k -> At b o (enc (slotf amsg_fields aemp x)) ->
  getu b (o + 6) 6 = Some (match x with Some _ => k | None => 0 end) /\ getu b (o + 12) 18 = Some (match x with Some m => a_sow m | None => 0 end).
Proof.
  intros Hx Hk A. assert (Hi : (o <= length b)%nat) by (apply At_bound in A; lia). apply At_skip in A. rewrite !getu_skip by exact Hi.
  destruct x as [m|]; cbn [slotf lokay] in *.
  - destruct Hx as [(rr & Hs & Hb & _) E]. unfold amsg_fields in A. cbn [app] in A. unfold ano in E. rewrite E in A. split.
    + eapply getu_u; [exact A|reflexivity|reflexivity|exact Hk].
    + eapply getu_u; [exact A|reflexivity|reflexivity|exact Hs].
  - split; (eapply getu_u; [exact A|reflexivity|reflexivity|split; [discriminate|reflexivity]]).
Qed.
Lemma b2a_eph_ok sat b (L : Z -> option bmsg) : (forall k, akey k -> lokay agood ano k (L k)) ->
  (forall k, akey k -> At b (aoff k) (enc (slotf amsg_fields aemp (L k)))) -> b2a_eph sat b = Some (ares sat L).
Proof.
  intros HL HA.
  pose proof (HL 10 ltac:(now left)) as L1. pose proof (HL 11 ltac:(right; now left)) as L2. pose proof (HL 30 ltac:(right; right; now left)) as L3. pose proof (HL 40 ltac:(right; right; now right)) as L4.
  pose proof (HA 10 ltac:(now left)) as B1. pose proof (HA 11 ltac:(right; now left)) as B2. pose proof (HA 30 ltac:(right; right; now left)) as B3. pose proof (HA 40 ltac:(right; right; now right)) as B4.
  change (aoff 10) with 0%nat in B1. change (aoff 11) with 320%nat in B2. change (aoff 30) with 640%nat in B3. change (aoff 40) with 1280%nat in B4. clear HL HA.
  destruct (a_top b 0 10 _ L1 ltac:(split; [discriminate|reflexivity]) B1) as [T1 S1]. destruct (a_top b 320 11 _ L2 ltac:(split; [discriminate|reflexivity]) B2) as [T2 S2].
  destruct (a_top b 640 30 _ L3 ltac:(split; [discriminate|reflexivity]) B3) as [T3 S3]. destruct (a_top b 1280 40 _ L4 ltac:(split; [discriminate|reflexivity]) B4) as [T4 _].
  unfold ares. set (o1 := L 10) in *. set (o2 := L 11) in *. set (o3 := L 30) in *. set (o4 := L 40) in *. clearbody o1 o2 o3 o4.
  cbn [Nat.add] in *. unfold b2a_eph. cbn [Nat.add Nat.mul]. rewrite T1, S1, T2, S2, T3, S3, T4. cbn [bind]. clear T1 T2 T3 T4 S1 S2 S3.
  apply a10 in L1. apply a11 in L2. apply a30 in L3. apply a40 in L4.
  destruct L1 as [->|(p1 & s1 & wn & ib2a & sis & ib1c & iode & e1 & r1 & -> & U1 & K1)]; [reflexivity|].
  destruct L2 as [->|(p2 & s2 & hs & q2 & e2 & r2 & -> & U2 & K2)]; [reflexivity|].
  destruct L3 as [->|(p3 & s3 & q3 & ck & iodc & tgda & isc & io & tgd & r3 & -> & U3 & K3)]; [reflexivity|].
  destruct L4 as [->|(p4 & s4 & q4 & s0 & si & r4 & -> & U4 & K4)]; [reflexivity|].
  cbn [Z.eqb Pos.eqb negb orb a_sow b2a_of a_body]. replace (s3 =? s1 + 2) with (s3 =? s1 + 1 + 1) by (f_equal; lia).
  destruct (Z.eqb_spec s2 (s1 + 1)) as [->|]; cbn [negb orb andb]; [|reflexivity]. destruct (s3 =? s1 + 1 + 1); cbn [negb orb andb]; [|reflexivity].
  cbn [abody_ok slotf] in *. destruct K1 as (? & ? & ? & ? & ? & K1). destruct K2 as (? & K2). destruct K3 as (K3 & ? & ? & ? & ?). destruct K4 as (? & K4).
  unfold amsg_fields in *. cbn [a_prn a_sow a_body aid abody_fields app] in *.
  assert (G1 : cnav_eph1 b wn 61 = Some (e1_attr wn e1)) by (apply eph1_ok; [exact (At_part b 0 [_;_;_;_;_;_;_;_] _ _ 61 B1 eq_refl)|exact K1]).
  assert (G2 : cnav_eph2 b 362 = Some (e2_attr e2)) by (apply eph2_ok; [exact (At_part b 320 [_;_;_;_;_] _ _ 42 B2 eq_refl)|exact K2]).
  assert (G3 : cnav_clk b wn 682 = Some (ck_attr wn ck)) by (apply clk_ok; [exact (At_part b 640 [_;_;_;_] _ _ 42 B3 eq_refl)|exact K3]).
  assert (G4 : cnav_sisai b 1327 = Some (si_attr si)) by (apply sisai_ok; [exact (At_part b 1280 [_;_;_;_;_] _ _ 47 B4 eq_refl)|exact K4]).
  unfold e1_fields, e2_fields, ck_fields, si_fields in *. cbn [app] in *. rds. rewrite G4. cbn [bind]. rds. rewrite G1. cbn [bind]. rds. rewrite G2. cbn [bind].
  rewrite G3. cbn [bind]. rds. rewrite land255. destruct (iodc mod 256 =? iode); cbn [negb]; [|reflexivity]. rds.
  unfold U in *. rewrite bdt_exact by lia. rewrite Z.shiftl_mul_pow2 by lia. change (2 ^ 3) with 8. rewrite (Z.mul_comm ib2a 8), (Z.mul_comm s1 3). reflexivity.
Qed.
Lemma a_heads m rest : agood m rest -> let x := enc (amsg_fields m) ++ rest in getu x 6 6 = Some (ano m) /\ getu x 12 18 = Some (a_sow m).
Proof.
  intros (Hs & Hb & _) x. assert (A : At x 0 (enc (amsg_fields m))) by (exists [], rest; split; reflexivity). clearbody x. apply aid_range in Hb.
  unfold amsg_fields in A. cbn [app] in A. split; (eapply getu_u; [exact A|reflexivity|reflexivity|assumption]).
Qed.
Lemma a_quiet : quiet decode_bds_b2a amsg_fields ano akey agood aemit.
Proof.
  intros q m rest d Hq Hg He. destruct (sat2prn_prn2sat BDS q Hq) as [Es _]. unfold decode_bds_b2a. rewrite Es. cbv beta iota.
  destruct (a_heads m rest Hg) as [G1 G2]. rewrite G1, G2. cbn [bind]. unfold aemit in He. cbn [existsb] in He. unfold b2a_slot.
  replace (ano m =? 10) with false by lia. replace (ano m =? 11) with false by lia. replace (ano m =? 30) with false by lia. replace (ano m =? 34) with false by lia.
  replace (ano m =? 40) with false by lia. split; [reflexivity|]. unfold akey. lia.
Qed.
Lemma a_keeps : keeps decode_bds_b2a amsg_fields ano aemp akey aoff agood aemit ares.
Proof.
  intros q m rest d b L Hq Hg He Eb Lb Bb HL HA L'. destruct (sat2prn_prn2sat BDS q Hq) as [Es _]. unfold decode_bds_b2a. rewrite Es. cbv beta iota.
  pose proof (a_heads m rest Hg) as [G1 G2]. rewrite G1, G2. cbn [bind].
  pose proof Hg as (Hs & Hb & n & Hl & Hn).
  assert (Em : exists mid, b2a_slot (ano m) = Some mid /\ 0 <= mid <= 4 /\ (akey (ano m) -> aoff (ano m) = (320 * Z.to_nat mid)%nat) /\
    (forall k, akey k -> ano m <> k -> (aoff k + 320 <= 320 * Z.to_nat mid \/ 320 * Z.to_nat mid + 320 <= aoff k)%nat)).
  { unfold aemit in He. cbn [existsb] in He. unfold b2a_slot, aoff, akey. set (a := ano m) in *. clearbody a.
    assert (C : a = 10 \/ a = 11 \/ a = 30 \/ a = 34 \/ a = 40) by lia.
    destruct C as [->|[->|[->|[->| ->]]]]; cbn [Z.eqb Pos.eqb]; eexists; (split; [reflexivity|split; [lia|split; [intros C; reflexivity || lia|intros k [->|[->|[->| ->]]] Hne; cbn [Z.eqb Pos.eqb]; lia]]]). }
  destruct Em as (mid & Em & Hm & Ho & Hd). rewrite Em. cbv beta iota. rewrite Eb. cbn [bind].
  rewrite (whole b _ n (mid * 40) Hl Lb) by lia. cbn [bind]. replace (8 * Z.to_nat (mid * 40))%nat with (320 * Z.to_nat mid)%nat by lia.
  set (b2 := splice b (320 * Z.to_nat mid) (enc (amsg_fields m) ++ rest)).
  assert (L2 : length b2 = length b) by (unfold b2; rewrite splice_length; lia).
  assert (B2 : bytelen b2 = bytelen b) by (unfold bytelen; now rewrite L2).
  assert (HL' : forall k, akey k -> lokay agood ano k (L' k)).
  { intros k Hk. unfold L'. destruct (Z.eqb_spec (ano m) k) as [<-|]; [|now apply HL]. split; [exists rest; exact Hg|reflexivity]. }
  assert (A2 : forall k, akey k -> At b2 (aoff k) (enc (slotf amsg_fields aemp (L' k)))).
  { intros k Hk. unfold L'. destruct (Z.eqb_spec (ano m) k) as [<-|Hne].
    - cbn [slotf]. rewrite (Ho Hk). apply spl_in. lia.
    - apply At_keep; [now apply HA|lia|]. rewrite aslot_width. specialize (Hd k Hk Hne). lia. }
  exists b2. rewrite (b2a_eph_ok _ b2 L' HL' A2). cbn [bind]. split; [reflexivity|]. split; [lia|]. split; [lia|exact A2].
Qed.
Lemma b2a_any h e : Forall (bgood agood) h -> bgood agood e ->
  exists d d', bfeeds decode_bds_b2a amsg_fields h bds_new = Some d /\ bfeed decode_bds_b2a amsg_fields e d = Some (d', bresult ano aemit ares h e).
Proof.
  apply (bany _ _ _ aemp akey aoff).
  - apply a_quiet. - apply a_keeps.
  - intros s L L' H. unfold ares. now rewrite !H.
  - intros k [->|[->|[->| ->]]]; (apply zb; [rewrite enc_length; cbn; lia|reflexivity]).
Qed.

(* ---------- B2b ---------- *)
Definition demp : list field := [(12 # 0); (6 # 0); (20 # 0); (436 # 0)].
Definition dgood (m : b2msg) (rest : bits) : Prop := U 20 (d_sow m) /\ dbody_ok (d_body m) /\ exists n, length (enc (dmsg_fields m) ++ rest) = (8 * n)%nat /\ (n <= 64)%nat.
Definition dkey (k : Z) : Prop := k = 10 \/ k = 30.
Definition doff (k : Z) : nat := if k =? 10 then 0%nat else 512%nat.
Definition dno2 (m : b2msg) : Z := did (d_body m).
Definition demit (m : b2msg) : bool := existsb (Z.eqb (dno2 m)) [10; 30; 40].
(** the week used for the time of ephemeris is 0 *)
Definition dres (sat : Z) (L : Z -> option b2msg) : option eph := b2b_of sat (fun _ => 0) (L 10, L 30).
Lemma dwidth m : length (enc (dmsg_fields m)) = 474%nat.
Proof. rewrite enc_length. destruct m as [? ? []]; reflexivity. Qed.
Lemma dslot_width o : length (enc (slotf dmsg_fields demp o)) = 474%nat.
Proof. destruct o; [apply dwidth|now rewrite enc_length]. Qed.
Lemma did_range b : dbody_ok b -> U 6 (did b).
Proof. destruct b; cbn [dbody_ok did]; intros H; unfold U; lia. Qed.
Lemma d10 o : lokay dgood dno2 10 o -> o = None \/ exists p s a x y b c, o = Some (B2M p s (D10 a x y b c)) /\ U 20 s /\ dbody_ok (D10 a x y b c).
Proof.
  destruct o as [[p s []]|]; cbn [lokay dno2 did d_body]; intros H; try (now left); right; destruct H as [(rr & H1 & H2 & _) E]; try discriminate; cbn [d_sow d_body dbody_ok] in *; try lia.
  repeat eexists; apply H2 || apply H1.
Qed.
Lemma d30 o : lokay dgood dno2 30 o -> o = None \/ exists p s a b x c d e f y g i, o = Some (B2M p s (D30 a b x c d e f y g i)) /\ U 20 s /\ dbody_ok (D30 a b x c d e f y g i).
Proof.
  destruct o as [[p s []]|]; cbn [lokay dno2 did d_body]; intros H; try (now left); right; destruct H as [(rr & H1 & H2 & _) E]; try discriminate; cbn [d_sow d_body dbody_ok] in *; try lia.
  repeat eexists; apply H2 || apply H1.
Qed.
Lemma d_top b o k (x : option b2msg) : lokay dgood dno2 k x -> U 6 k -> At b o (enc (slotf dmsg_fields demp x)) ->
  getu b (o + 12) 6 = Some (match x with Some _ => k | None => 0 end) /\ getu b (o + 18) 20 = Some (match x with Some m => d_sow m | None => 0 end).
Proof.
  intros Hx Hk A. assert (Hi : (o <= length b)%nat) by (apply At_bound in A; lia). apply At_skip in A. rewrite !getu_skip by exact Hi.
  destruct x as [m|]; cbn [slotf lokay] in *.
  - destruct Hx as [(rr & Hs & Hb & _) E]. unfold dmsg_fields in A. cbn [app] in A. unfold dno2 in E. rewrite E in A. split.
    + eapply getu_u; [exact A|reflexivity|reflexivity|exact Hk].
    + eapply getu_u; [exact A|reflexivity|reflexivity|exact Hs].
  - split; (eapply getu_u; [exact A|reflexivity|reflexivity|split; [discriminate|reflexivity]]).
Qed.
Lemma b2b_eph_ok sat b (L : Z -> option b2msg) : (forall k, dkey k -> lokay dgood dno2 k (L k)) ->
  (forall k, dkey k -> At b (doff k) (enc (slotf dmsg_fields demp (L k)))) -> b2b_eph sat b = Some (dres sat L).
Proof.
  intros HL HA. pose proof (HL 10 ltac:(now left)) as L1. pose proof (HL 30 ltac:(now right)) as L2.
  pose proof (HA 10 ltac:(now left)) as B1. pose proof (HA 30 ltac:(now right)) as B2.
  change (doff 10) with 0%nat in B1. change (doff 30) with 512%nat in B2. clear HL HA.
  destruct (d_top b 0 10 _ L1 ltac:(split; [discriminate|reflexivity]) B1) as [T1 S1]. destruct (d_top b 512 30 _ L2 ltac:(split; [discriminate|reflexivity]) B2) as [T2 S2].
  unfold dres. set (o1 := L 10) in *. set (o2 := L 30) in *. clearbody o1 o2.
  cbn [Nat.add] in *. unfold b2b_eph. cbn [Nat.add Nat.mul]. rewrite T1, S1, T2, S2. cbn [bind]. clear T1 T2 S1 S2. apply d10 in L1. apply d30 in L2.
  destruct L1 as [->|(p1 & s1 & q1 & e1 & e2 & integ & sis & -> & U1 & K1)]; [reflexivity|].
  destruct L2 as [->|(p2 & s2 & wn & q2 & ck & tgd & io & utc & eop & si & s0 & svh & -> & U2 & K2)]; [reflexivity|].
  cbn [Z.eqb Pos.eqb negb orb d_sow b2b_of d_body]. destruct (s2 =? s1 + 1); cbn [negb]; [|reflexivity].
  cbn [dbody_ok slotf] in *. destruct K1 as (K1 & K1' & ? & ?). destruct K2 as (? & K2 & ? & K2' & ? & ?).
  unfold dmsg_fields in *. cbn [d_head d_sow d_body did dbody_fields app] in *.
  assert (G1 : cnav_eph1 b 0 42 = Some (e1_attr 0 e1)) by (apply eph1_ok; [exact (At_part b 0 [_;_;_;_] _ _ 42 B1 eq_refl)|exact K1]).
  assert (G2 : cnav_eph2 b 245 = Some (e2_attr e2)).
  { apply eph2_ok; [|exact K1']. unfold e1_fields in B1. cbn [app] in B1. exact (At_part b 0 [_;_;_;_;_;_;_;_;_;_;_;_;_] _ _ 245 B1 eq_refl). }
  assert (G3 : cnav_clk b wn 567 = Some (ck_attr wn ck)) by (apply clk_ok; [exact (At_part b 512 [_;_;_;_;_] _ _ 55 B2 eq_refl)|exact K2]).
  assert (G4 : cnav_sisai b 957 = Some (si_attr si)).
  { apply sisai_ok; [|exact K2']. unfold ck_fields in B2. cbn [app] in B2. exact (At_part b 512 [_;_;_;_;_;_;_;_;_;_;_;_;_] _ _ 445 B2 eq_refl). }
  unfold e1_fields, e2_fields, ck_fields, si_fields in *. cbn [app] in *. rewrite G1. cbn [bind]. rewrite G2. cbn [bind]. rds. rewrite G3. cbn [bind]. rds. rewrite G4. cbn [bind]. rds.
  unfold U in *. rewrite bdt_exact by lia. reflexivity.
Qed.
Lemma d_heads m rest : dgood m rest -> let x := enc (dmsg_fields m) ++ rest in getu x 12 6 = Some (dno2 m) /\ getu x 18 20 = Some (d_sow m).
Proof.
  intros (Hs & Hb & _) x. assert (A : At x 0 (enc (dmsg_fields m))) by (exists [], rest; split; reflexivity). clearbody x. apply did_range in Hb.
  unfold dmsg_fields in A. cbn [app] in A. split; (eapply getu_u; [exact A|reflexivity|reflexivity|assumption]).
Qed.
Lemma d_quiet : quiet decode_bds_b2b dmsg_fields dno2 dkey dgood demit.
Proof.
  intros q m rest d Hq Hg He. destruct (sat2prn_prn2sat BDS q Hq) as [Es _]. unfold decode_bds_b2b. rewrite Es. cbv beta iota.
  destruct (d_heads m rest Hg) as [G1 G2]. rewrite G1, G2. cbn [bind]. unfold demit in He. cbn [existsb] in He. unfold b2b_slot.
  replace (dno2 m =? 10) with false by lia. replace (dno2 m =? 30) with false by lia. replace (dno2 m =? 40) with false by lia. split; [reflexivity|]. unfold dkey. lia.
Qed.
Lemma d_keeps : keeps decode_bds_b2b dmsg_fields dno2 demp dkey doff dgood demit dres.
Proof.
  intros q m rest d b L Hq Hg He Eb Lb Bb HL HA L'. destruct (sat2prn_prn2sat BDS q Hq) as [Es _]. unfold decode_bds_b2b. rewrite Es. cbv beta iota.
  pose proof (d_heads m rest Hg) as [G1 G2]. rewrite G1, G2. cbn [bind].
  pose proof Hg as (Hs & Hb & n & Hl & Hn).
  assert (Em : exists mid, b2b_slot (dno2 m) = Some mid /\ 0 <= mid <= 2 /\ (dkey (dno2 m) -> doff (dno2 m) = (512 * Z.to_nat mid)%nat) /\
    (forall k, dkey k -> dno2 m <> k -> (doff k + 512 <= 512 * Z.to_nat mid \/ 512 * Z.to_nat mid + 512 <= doff k)%nat)).
  { unfold demit in He. cbn [existsb] in He. unfold b2b_slot, doff, dkey. set (a := dno2 m) in *. clearbody a.
    assert (C : a = 10 \/ a = 30 \/ a = 40) by lia.
    destruct C as [->|[->| ->]]; cbn [Z.eqb Pos.eqb]; eexists; (split; [reflexivity|split; [lia|split; [intros C; reflexivity || lia|intros k [->| ->] Hne; cbn [Z.eqb Pos.eqb]; lia]]]). }
  destruct Em as (mid & Em & Hm & Ho & Hd). rewrite Em. cbv beta iota. rewrite Eb. cbn [bind].
  rewrite (whole b _ n (mid * 64) Hl Lb) by lia. cbn [bind]. replace (8 * Z.to_nat (mid * 64))%nat with (512 * Z.to_nat mid)%nat by lia.
  set (b2 := splice b (512 * Z.to_nat mid) (enc (dmsg_fields m) ++ rest)).
  assert (L2 : length b2 = length b) by (unfold b2; rewrite splice_length; lia).
  assert (B2 : bytelen b2 = bytelen b) by (unfold bytelen; now rewrite L2).
  assert (HL' : forall k, dkey k -> lokay dgood dno2 k (L' k)).
  { intros k Hk. unfold L'. destruct (Z.eqb_spec (dno2 m) k) as [<-|]; [|now apply HL]. split; [exists rest; exact Hg|reflexivity]. }
  assert (A2 : forall k, dkey k -> At b2 (doff k) (enc (slotf dmsg_fields demp (L' k)))).
  { intros k Hk. unfold L'. destruct (Z.eqb_spec (dno2 m) k) as [<-|Hne].
    - cbn [slotf]. rewrite (Ho Hk). apply spl_in. lia.
    - apply At_keep; [now apply HA|lia|]. rewrite dslot_width. specialize (Hd k Hk Hne). lia. }
  exists b2. rewrite (b2b_eph_ok _ b2 L' HL' A2). cbn [bind]. split; [reflexivity|]. split; [lia|]. split; [lia|exact A2].
Qed.
Lemma b2b_any h e : Forall (bgood dgood) h -> bgood dgood e ->
  exists d d', bfeeds decode_bds_b2b dmsg_fields h bds_new = Some d /\ bfeed decode_bds_b2b dmsg_fields e d = Some (d', bresult dno2 demit dres h e).
Proof.
  apply (bany _ _ _ demp dkey doff).
  - apply d_quiet. - apply d_keeps.
  - intros s L L' H. unfold dres. now rewrite !H.
  - intros k [->| ->]; (apply zb; [rewrite enc_length; cbn; lia|reflexivity]).
Qed.
