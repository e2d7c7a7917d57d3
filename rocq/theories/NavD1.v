(** BDS D1: three subframes kept by satellite. *)
From Verif Require Import SatModel SatProofs TimeModel TimeSpec TimeProofs CssrState CssrFacts RawModel RawSpec RawFacts RawGal RawLnav RawProofs NavModel NavSpec NavFacts NavBds.
From Verif Require Import Base BaseFacts FieldFacts.
From Coq Require Import ZifyBool ZifyNat.
Notation length := List.length.
Open Scope Z_scope.

Definition femp : list field := [(15 # 0); (3 # 0); (8 # 0); (4 # 0); (12 # 0); (278 # 0)].
Definition fgood (f : dframe) (rest : bits) : Prop := dframe_ok f.
Definition fkey (k : Z) : Prop := 1 <= k <= 3.
Definition foff (k : Z) : nat := (320 * Z.to_nat (k - 1))%nat.
Definition fno (f : dframe) : Z := dno (f_sub f).
Definition femit (f : dframe) : bool := fno f <=? 3.
(** the week moved the wrong way, the times in BDT *)
Definition fres (sat : Z) (L : Z -> option dframe) : option eph := d1_of sat far_week (at_week bds0) (L 1, L 2, L 3).
Lemma fwid f : length (enc (dframe_fields f)) = 320%nat.
Proof. rewrite enc_length. destruct f as [? ? ? [] ? ?]; reflexivity. Qed.
Lemma fslot_width o : length (enc (slotf dframe_fields femp o)) = 320%nat.
Proof. destruct o; [apply fwid|now rewrite enc_length]. Qed.
Lemma fno_range f : dframe_ok f -> U 3 (dno (f_sub f)).
Proof. intros [_ H]. destruct (f_sub f); cbn [dsub_ok dno] in *; unfold U; lia. Qed.
Lemma f1 o : lokay fgood fno 1 o -> o = None \/ exists rev sow p1 a1 a2 a3 a4 a5 a6 a7 a8 a9 a10 a11 a12 a13 a14 a15 par pad,
  o = Some (DF rev sow p1 (DA a1 a2 a3 a4 a5 a6 a7 a8 a9 a10 a11 a12 a13 a14 a15) par pad) /\ U 20 sow /\ dsub_ok (DA a1 a2 a3 a4 a5 a6 a7 a8 a9 a10 a11 a12 a13 a14 a15).
Proof.
  destruct o as [[z1 z2 z3 [] z4 z5]|]; cbn [lokay fno dno f_sub]; intros H; try (now left); right; destruct H as [(rr & H1 & H2) E]; try discriminate; cbn [f_sow f_sub dsub_ok] in *; try lia.
  do 20 eexists. split; [reflexivity|]. split; [exact H1|exact H2].
Qed.
Lemma f2 o : lokay fgood fno 2 o -> o = None \/ exists rev sow p1 a1 a2 a3 a4 a5 a6 a7 a8 a9 par pad,
  o = Some (DF rev sow p1 (DB a1 a2 a3 a4 a5 a6 a7 a8 a9) par pad) /\ U 20 sow /\ dsub_ok (DB a1 a2 a3 a4 a5 a6 a7 a8 a9).
Proof.
  destruct o as [[z1 z2 z3 [] z4 z5]|]; cbn [lokay fno dno f_sub]; intros H; try (now left); right; destruct H as [(rr & H1 & H2) E]; try discriminate; cbn [f_sow f_sub dsub_ok] in *; try lia.
  do 14 eexists. split; [reflexivity|]. split; [exact H1|exact H2].
Qed.
Lemma f3 o : lokay fgood fno 3 o -> o = None \/ exists rev sow p1 a1 a2 a3 a4 a5 a6 a7 a8 a9 par pad,
  o = Some (DF rev sow p1 (DC a1 a2 a3 a4 a5 a6 a7 a8 a9) par pad) /\ U 20 sow /\ dsub_ok (DC a1 a2 a3 a4 a5 a6 a7 a8 a9).
Proof.
  destruct o as [[z1 z2 z3 [] z4 z5]|]; cbn [lokay fno dno f_sub]; intros H; try (now left); right; destruct H as [(rr & H1 & H2) E]; try discriminate; cbn [f_sow f_sub dsub_ok] in *; try lia.
  do 14 eexists. split; [reflexivity|]. split; [exact H1|exact H2].
Qed.
Lemma d1_eph_ok sat b (L : Z -> option dframe) : (forall k, fkey k -> lokay fgood fno k (L k)) ->
  (forall k, fkey k -> At b (foff k) (enc (slotf dframe_fields femp (L k)))) -> d1_eph sat b = Some (fres sat L).
Proof.
  intros HL HA. pose proof (HL 1 ltac:(split; discriminate)) as L1. pose proof (HL 2 ltac:(split; discriminate)) as L2. pose proof (HL 3 ltac:(split; discriminate)) as L3.
  pose proof (HA 1 ltac:(split; discriminate)) as B1. pose proof (HA 2 ltac:(split; discriminate)) as B2. pose proof (HA 3 ltac:(split; discriminate)) as B3.
  change (foff 1) with 0%nat in B1. change (foff 2) with 320%nat in B2. change (foff 3) with (320*2)%nat in B3. clear HL HA.
  unfold fres. set (o1 := L 1) in *. set (o2 := L 2) in *. set (o3 := L 3) in *. clearbody o1 o2 o3. apply f1 in L1. apply f2 in L2. apply f3 in L3.
  destruct L1 as [->|(v1 & s1 & p1 & svh & iodc & ura & wn & toc & tgd & tgdb & r5 & r6 & r7 & r8 & af2 & af0 & af1 & iode & par1 & pad1 & -> & U1 & K1)];
  destruct L2 as [->|(v2 & s2 & p2 & deln & cuc & M0 & e & cus & crc & crs & sqA & toeh & par2 & pad2 & -> & U2 & K2)];
  destruct L3 as [->|(v3 & s3 & p3 & toel & i0 & cic & OMGd & cis & idot & OMG0 & omg & r & par3 & pad3 & -> & U3 & K3)];
  cbn [slotf] in *; unfold dframe_fields, femp in *; cbn [f_rev f_sow f_par1 f_sub f_par f_pad dno dwords bwords app] in *; unfold d1_eph; rdx;
  cbn [Z.eqb Pos.eqb negb orb]; try reflexivity.
  cbn [dsub_ok] in *. destruct K1 as (? & ? & Ku & ? & ? & ? & ? & ? & ? & ? & ?). destruct K2 as (? & ? & ? & ? & ? & ? & ? & ? & ?). destruct K3 as (? & ? & ? & ? & ? & ? & ? & ?).
  rdx. destruct (ura_some ura Ku) as (sv & E1 & E2). rewrite E1. cbn [bind]. unfold d1_of. cbn [f_sub f_sow]. rewrite E2, !far_eq.
  rewrite Z.shiftl_mul_pow2 by lia. replace ((toeh * 2 ^ 15 + toel) * 8) with (8 * (2 ^ 15 * toeh + toel)) by lia. rewrite (Z.mul_comm toc 8).
  assert (P1 : 0 <= s1 <= 1000000000) by (unfold U in U1; clear - U1; lia).
  assert (P2 : 0 <= 8 * toc <= 1000000000) by (match goal with H : U 17 toc |- _ => unfold U in H; clear - H; lia end).
  assert (P3 : 0 <= 8 * (2 ^ 15 * toeh + toel) <= 1000000000).
  { match goal with H : U 2 toeh, H' : U 15 toel |- _ => unfold U in H, H'; clear - H H'; lia end. }
  rewrite (bdt_gps wn s1 P1), (bdt_exact _ _ P2), (bdt_exact _ _ P3). reflexivity.
Qed.
Lemma f_heads f rest : dframe_ok f -> let x := enc (dframe_fields f) ++ rest in
  getu x 0 11 = Some 1810 /\ getu x 15 3 = Some (fno f) /\ getu x 18 8 = Some (f_sow f / 2 ^ 12).
Proof.
  intros Hf x. assert (A : At x 0 (enc (dframe_fields f))) by (exists [], rest; split; reflexivity). clearbody x. pose proof (fno_range f Hf) as Hn. destruct Hf as [Hs _].
  unfold dframe_fields in A. set (r := bwords _ _ ++ _) in A. clearbody r. cbn [app] in A. split; [|split].
  - eapply getu_u; [exact A|reflexivity|reflexivity|split; [discriminate|reflexivity]].
  - eapply getu_u; [exact A|reflexivity|reflexivity|exact Hn].
  - eapply getu_u; [exact A|reflexivity|reflexivity|]. unfold U in *. split; [apply Z.div_pos; lia|]. apply Z.div_lt_upper_bound; [reflexivity|]. change (2 ^ 12 * 2 ^ Z.of_nat 8) with (2 ^ 20). lia.
Qed.
Lemma fhead f rest : RawModel.head 40 (enc (dframe_fields f) ++ rest) = enc (dframe_fields f).
Proof.
  unfold RawModel.head. change (8 * 40)%nat with 320%nat. pose proof (fwid f) as W. rewrite firstn_app, W, Nat.sub_diag, firstn_O, app_nil_r.
  apply firstn_all2. lia.
Qed.
Lemma f_quiet : quiet decode_bds_d1 dframe_fields fno fkey fgood femit.
Proof.
  intros q m rest d Hq Hg He. destruct (sat2prn_prn2sat BDS q Hq) as [Es _]. unfold decode_bds_d1. rewrite Es. cbv beta iota.
  destruct (f_heads m rest Hg) as (G1 & G2 & G3). rewrite G1, G2, G3. cbn [bind]. unfold femit in He. cbn [Z.eqb Pos.eqb negb].
  replace (fno m >? 3) with true by lia. split; [reflexivity|]. unfold fkey. lia.
Qed.
Lemma f_keeps : keeps decode_bds_d1 dframe_fields fno femp fkey foff fgood femit fres.
Proof.
  intros q m rest d b L Hq Hg He Eb Lb Bb HL HA L'. destruct (sat2prn_prn2sat BDS q Hq) as [Es _]. unfold decode_bds_d1. rewrite Es. cbv beta iota.
  pose proof (f_heads m rest Hg) as (G1 & G2 & G3). rewrite G1, G2, G3. cbn [bind]. unfold femit in He. cbn [Z.eqb Pos.eqb negb].
  replace (fno m >? 3) with false by lia. rewrite Eb. cbn [bind]. rewrite fhead. pose proof (fwid m) as W. pose proof (fno_range m Hg) as Hn.
  set (b2 := setslice b ((fno m - 1) * 40) ((fno m - 1) * 40 + 40) (enc (dframe_fields m))).
  assert (L2 : exists n, length b2 = (8 * n)%nat /\ (200 <= n)%nat).
  { unfold b2. rewrite setslice_length, W by exact Lb. set (i := fno m) in *. pose proof (pyidx_le b ((i - 1) * 40)). pose proof (pyidx_le b ((i - 1) * 40 + 40)).
    exists (pyidx b ((i - 1) * 40) + 40 + (bytelen b - Nat.max (pyidx b ((i - 1) * 40)) (pyidx b ((i - 1) * 40 + 40))))%nat. split; [lia|].
    unfold pyidx in *. destruct ((i - 1) * 40 <? 0) eqn:?; destruct ((i - 1) * 40 + 40 <? 0) eqn:?; lia. }
  destruct L2 as (n & L2 & Hb2). destruct (bytelen_eq b2 n L2) as [B2 B2'].
  assert (HL' : forall k, fkey k -> lokay fgood fno k (L' k)).
  { intros k Hk. unfold L'. destruct (Z.eqb_spec (fno m) k) as [<-|]; [|now apply HL]. split; [exists rest; exact Hg|reflexivity]. }
  assert (A2 : forall k, fkey k -> At b2 (foff k) (enc (slotf dframe_fields femp (L' k)))).
  { intros k Hk. unfold L'. unfold fkey in Hk. destruct (Z.leb_spec 1 (fno m)) as [H1|H1].
    - unfold b2. rewrite setslice_splice by lia. replace (8 * Z.to_nat ((fno m - 1) * 40))%nat with (foff (fno m)) by (unfold foff; lia).
      destruct (Z.eqb_spec (fno m) k) as [<-|Hne]; [cbn [slotf]; apply splice_at; unfold foff; lia|].
      apply At_keep; [now apply HA|unfold foff; lia|]. rewrite fslot_width. unfold foff. lia.
    - assert (E0 : fno m = 0) by (unfold U in Hn; unfold fno in *; lia). destruct (Z.eqb_spec (fno m) k) as [Ek|Hne]; [lia|].
      unfold b2. apply setslice_keep; [now apply HA| |exact Lb]. rewrite fslot_width. unfold pyidx, foff. replace ((fno m - 1) * 40 <? 0) with true by lia. lia. }
  exists b2. rewrite (d1_eph_ok _ b2 L' HL' A2). cbn [bind]. split; [reflexivity|]. split; [exact B2'|]. split; [lia|exact A2].
Qed.
Lemma d1_any h e : Forall (bgood fgood) h -> bgood fgood e ->
  exists d d', bfeeds decode_bds_d1 dframe_fields h bds_new = Some d /\ bfeed decode_bds_d1 dframe_fields e d = Some (d', bresult fno femit fres h e).
Proof.
  apply (bany _ _ _ femp fkey foff).
  - apply f_quiet. - apply f_keeps.
  - intros s L L' H. unfold fres. now rewrite !H.
  - intros k Hk. unfold fkey in Hk. apply zb; [rewrite enc_length; cbn [fwidth femp]; unfold foff; cbn; lia|reflexivity].
Qed.
