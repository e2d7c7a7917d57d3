(** Galileo I/NAV and F/NAV: the ephemeris from a buffer whose slots hold given words. *)
From Verif Require Import SatModel TimeModel TimeSpec TimeProofs CssrState CssrFacts RawModel RawSpec RawFacts.
From Verif Require Import Base BaseFacts FieldFacts.
From Coq Require Import ZifyBool ZifyNat.
Notation length := List.length.
Open Scope Z_scope.

(* ---------- times ---------- *)
Lemma wt_exact e d0 w t : epoch2time 1 e = GT (86400 * d0) 0 -> 0 <= t <= 1000000000 -> wt2time 1 e w t = at_week d0 w t.
Proof.
  intros E Ht. unfold wt2time, at_week. rewrite E. cbn [gt gs].
  replace ((t <? -1000000000 * 1) || (t >? 1000000000 * 1)) with false by lia. rewrite Z.quot_1_r. f_equal; lia.
Qed.
Lemma gst_exact w t : 0 <= t <= 1000000000 -> gst2time 1 w t = at_week gal0 w t.
Proof. apply wt_exact. reflexivity. Qed.
Lemma gpst_exact w t : 0 <= t <= 1000000000 -> gpst2time 1 w t = at_week gps0 w t.
Proof. apply wt_exact. reflexivity. Qed.
Lemma bdt_exact w t : 0 <= t <= 1000000000 -> bdt2time 1 w t = at_week bds0 w t.
Proof. apply wt_exact. reflexivity. Qed.
Lemma adj_near w t tow : adj_week w t tow = near_week w t tow.
Proof.
  unfold adj_week, near_week. replace (t <? tow - 302400) with (t - tow <? -302400) by lia.
  now replace (t >? tow + 302400) with (t - tow >? 302400) by lia.
Qed.
Lemma sisa_eq s : sisa2sva s = sisa_cm s.
Proof.
  unfold sisa2sva, sisa_cm.
  replace (s <? 50) with (s <=? 49) by lia. replace (s <? 75) with (s <=? 74) by lia. replace (s <? 100) with (s <=? 99) by lia.
  replace (s <? 126) with (s <=? 125) by lia.
  destruct (s <=? 49); [reflexivity|]. destruct (s <=? 74); [f_equal; lia|]. destruct (s <=? 99); [f_equal; lia|].
  destruct (s <=? 125); [f_equal; lia|]. reflexivity.
Qed.
Lemma svh_eq a b c d : U 2 a -> U 1 b -> U 2 c -> U 1 d ->
  Z.lor (Z.lor (Z.lor (Z.shiftl a 7) (Z.shiftl b 6)) (Z.shiftl c 1)) d = 128 * a + 64 * b + 2 * c + d.
Proof.
  unfold U. intros Ha Hb Hc Hd.
  assert (Ea : a = 0 \/ a = 1 \/ a = 2 \/ a = 3) by lia. assert (Ec : c = 0 \/ c = 1 \/ c = 2 \/ c = 3) by lia.
  assert (Eb : b = 0 \/ b = 1) by lia. assert (Ed : d = 0 \/ d = 1) by lia.
  destruct Ea as [->|[->|[->| ->]]]; destruct Eb as [->| ->]; destruct Ec as [->|[->|[->| ->]]]; destruct Ed as [->| ->]; reflexivity.
Qed.
Lemma svh_eq2 a b : U 2 a -> U 1 b -> Z.lor (Z.shiftl a 4) (Z.shiftl b 3) = 16 * a + 8 * b.
Proof.
  unfold U. intros Ha Hb.
  assert (Ea : a = 0 \/ a = 1 \/ a = 2 \/ a = 3) by lia. assert (Eb : b = 0 \/ b = 1) by lia.
  destruct Ea as [->|[->|[->| ->]]]; destruct Eb as [->| ->]; reflexivity.
Qed.

(* ---------- I/NAV ---------- *)
(** what a slot holds: the word last written there, or zeros *)
Definition wslot (o : option gword) : list field :=
  match o with Some w => word_fields w | None => [(6%nat, 0); (10%nat, 0); (112%nat, 0)] end.
Definition slot_ok (k : Z) (o : option gword) : Prop := match o with Some w => word_ok w /\ wtype w = k | None => True end.
Ltac exs := repeat match goal with |- exists _, _ => eexists end; split; [reflexivity|assumption].
Lemma slot1 o : slot_ok 1 o -> o = None \/ exists iod toe M0 e sqrtA sp, o = Some (W1 iod toe M0 e sqrtA sp) /\ word_ok (W1 iod toe M0 e sqrtA sp).
Proof. destruct o as [[]|]; cbn [slot_ok wtype]; intros H; try (now left); right; destruct H as [H E]; try discriminate; [now exs|]. cbn in H. lia. Qed.
Lemma slot2 o : slot_ok 2 o -> o = None \/ exists iod a b c d sp, o = Some (W2 iod a b c d sp) /\ word_ok (W2 iod a b c d sp).
Proof. destruct o as [[]|]; cbn [slot_ok wtype]; intros H; try (now left); right; destruct H as [H E]; try discriminate; [now exs|]. cbn in H. lia. Qed.
Lemma slot3 o : slot_ok 3 o -> o = None \/ exists iod a b c d e f g, o = Some (W3 iod a b c d e f g) /\ word_ok (W3 iod a b c d e f g).
Proof. destruct o as [[]|]; cbn [slot_ok wtype]; intros H; try (now left); right; destruct H as [H E]; try discriminate; [now exs|]. cbn in H. lia. Qed.
Lemma slot4 o : slot_ok 4 o -> o = None \/ exists iod a b c d e f g h, o = Some (W4 iod a b c d e f g h) /\ word_ok (W4 iod a b c d e f g h).
Proof. destruct o as [[]|]; cbn [slot_ok wtype]; intros H; try (now left); right; destruct H as [H E]; try discriminate; [now exs|]. cbn in H. lia. Qed.
Lemma slot5 o : slot_ok 5 o -> o = None \/ exists a b c d e f g h i j k l m, o = Some (W5 a b c d e f g h i j k l m) /\ word_ok (W5 a b c d e f g h i j k l m).
Proof. destruct o as [[]|]; cbn [slot_ok wtype]; intros H; try (now left); right; destruct H as [H E]; try discriminate; [now exs|]. cbn in H. lia. Qed.

Lemma inav_eph_ok sat type_ b o1 o2 o3 o4 o5 :
  slot_ok 1 o1 -> slot_ok 2 o2 -> slot_ok 3 o3 -> slot_ok 4 o4 -> slot_ok 5 o5 ->
  At b 128 (enc (wslot o1)) -> At b (128*2) (enc (wslot o2)) -> At b (128*3) (enc (wslot o3)) ->
  At b (128*4) (enc (wslot o4)) -> At b (128*5) (enc (wslot o5)) ->
  inav_eph sat type_ b = Some (inav_of sat type_ (o1, o2, o3, o4, o5)).
Proof.
  intros H1 H2 H3 H4 H5 A1 A2 A3 A4 A5.
  apply slot1 in H1. apply slot2 in H2. apply slot3 in H3. apply slot4 in H4. apply slot5 in H5.
  destruct H1 as [->|(iod & toe & M0 & e & sqrtA & sp1 & -> & K1)];
  destruct H2 as [->|(iod2 & OMG0 & i0 & omg & idot & sp2 & -> & K2)];
  destruct H3 as [->|(iod3 & OMGd & deln & cuc & cus & crc & crs & sisa & -> & K3)];
  destruct H4 as [->|(iod4 & svid & cic & cis & toc & af0 & af1 & af2 & sp4 & -> & K4)];
  destruct H5 as [->|(ai0 & ai1 & ai2 & reg & bgda & bgdb & e5bhs & e1bhs & e5bdvs & e1bdvs & wn & tow & sp5 & -> & K5)];
  cbn [wslot word_fields] in A1, A2, A3, A4, A5;
  try (destruct K1 as (? & ? & ? & ? & ?)); try (destruct K2 as (? & ? & ? & ? & ?)); try (destruct K3 as (? & ? & ? & ? & ? & ? & ? & ?));
  try (destruct K4 as (? & ? & ? & ? & ? & ? & ? & ?)); try (destruct K5 as (? & ? & ? & ? & ? & ? & ? & ?));
  unfold inav_eph; rds;
  closed_tests; cbn [inav_of]; try reflexivity.
  destruct (iod =? iod2); [|reflexivity]. destruct (iod =? iod3); [|reflexivity]. destruct (iod =? iod4); [|reflexivity].
  cbn [negb orb andb]. rds. unfold gal_attr. unfold U in *.
  rewrite adj_near, sisa_eq, svh_eq by assumption. rewrite !gst_exact by lia.
  replace (toc * 60) with (60 * toc) by lia. replace (toe * 60) with (60 * toe) by lia.
  assert (Hc : (if (type_ =? 0) || (type_ =? 2)
       then Z.lor (if type_ =? 0 then 1 else if type_ =? 1 then 2 else if type_ =? 2 then 4 else 0) (Z.shiftl 1 9)
       else if type_ =? 1 then Z.lor (if type_ =? 0 then 1 else if type_ =? 1 then 2 else if type_ =? 2 then 4 else 0) (Z.shiftl 1 8)
       else if type_ =? 0 then 1 else if type_ =? 1 then 2 else if type_ =? 2 then 4 else 0) = inav_code type_).
  { unfold inav_code. destruct (Z.eqb_spec type_ 0) as [->|]; [reflexivity|]. destruct (Z.eqb_spec type_ 1) as [->|]; [reflexivity|].
    destruct (Z.eqb_spec type_ 2) as [->|]; reflexivity. }
  now rewrite Hc.
Qed.

(* ---------- F/NAV ---------- *)
Definition fslot (k : Z) (o : option fpage) : list field :=
  match o with Some p => fpage_fields p | None =>
    if k =? 1 then [(6%nat, 0); (6%nat, 0); (10%nat, 0); (226%nat, 0)] else [(6%nat, 0); (10%nat, 0); (232%nat, 0)] end.
Definition fslot_ok (k : Z) (o : option fpage) : Prop := match o with Some p => fpage_ok p /\ ftype p = k | None => True end.
Lemma fslot1 o : fslot_ok 1 o -> o = None \/ exists svid iod toc af0 af1 af2 sisa ai0 ai1 ai2 reg bgda e5ahs wn tow e5advs sp,
  o = Some (F1 svid iod toc af0 af1 af2 sisa ai0 ai1 ai2 reg bgda e5ahs wn tow e5advs sp) /\ fpage_ok (F1 svid iod toc af0 af1 af2 sisa ai0 ai1 ai2 reg bgda e5ahs wn tow e5advs sp).
Proof. destruct o as [[]|]; cbn [fslot_ok ftype]; intros H; try (now left); right; destruct H as [H E]; try discriminate; [now exs|]. cbn in H. lia. Qed.
Lemma fslot2 o : fslot_ok 2 o -> o = None \/ exists iod M0 OMGd e sqrtA OMG0 idot wn tow sp,
  o = Some (F2 iod M0 OMGd e sqrtA OMG0 idot wn tow sp) /\ fpage_ok (F2 iod M0 OMGd e sqrtA OMG0 idot wn tow sp).
Proof. destruct o as [[]|]; cbn [fslot_ok ftype]; intros H; try (now left); right; destruct H as [H E]; try discriminate; [now exs|]. cbn in H. lia. Qed.
Lemma fslot3 o : fslot_ok 3 o -> o = None \/ exists iod i0 omg deln cuc cus crc crs toe wn tow sp,
  o = Some (F3 iod i0 omg deln cuc cus crc crs toe wn tow sp) /\ fpage_ok (F3 iod i0 omg deln cuc cus crc crs toe wn tow sp).
Proof. destruct o as [[]|]; cbn [fslot_ok ftype]; intros H; try (now left); right; destruct H as [H E]; try discriminate; [now exs|]. cbn in H. lia. Qed.
Lemma fslot4 o : fslot_ok 4 o -> o = None \/ exists iod cic cis body, o = Some (F4 iod cic cis body) /\ fpage_ok (F4 iod cic cis body).
Proof. destruct o as [[]|]; cbn [fslot_ok ftype]; intros H; try (now left); right; destruct H as [H E]; try discriminate; [now exs|]. cbn in H. lia. Qed.

(** the satellite number in the slot of page 1 *)
Definition svid_of (o : option fpage) : Z := match o with Some (F1 svid _ _ _ _ _ _ _ _ _ _ _ _ _ _ _ _) => svid | _ => 0 end.
Lemma fnav_eph_ok sat svid b o1 o2 o3 o4 :
  fslot_ok 1 o1 -> fslot_ok 2 o2 -> fslot_ok 3 o3 -> fslot_ok 4 o4 ->
  At b 0 (enc (fslot 1 o1)) -> At b 248 (enc (fslot 2 o2)) -> At b (248*2) (enc (fslot 3 o3)) -> At b (248*3) (enc (fslot 4 o4)) ->
  fnav_eph sat svid b = Some (if svid =? svid_of o1 then fnav_of sat (o1, o2, o3, o4) else None).
Proof.
  intros H1 H2 H3 H4 A1 A2 A3 A4.
  apply fslot1 in H1. apply fslot2 in H2. apply fslot3 in H3. apply fslot4 in H4.
  destruct H1 as [->|(svid1 & iod & toc & af0 & af1 & af2 & sisa & ai0 & ai1 & ai2 & reg & bgda & e5ahs & wn & tow & e5advs & sp1 & -> & K1)];
  destruct H2 as [->|(iod2 & M0 & OMGd & e & sqrtA & OMG0 & idot & wn2 & tow2 & sp2 & -> & K2)];
  destruct H3 as [->|(iod3 & i0 & omg & deln & cuc & cus & crc & crs & toe & wn3 & tow3 & sp3 & -> & K3)];
  destruct H4 as [->|(iod4 & cic & cis & body & -> & K4)];
  cbn [fslot fpage_fields Z.eqb Pos.eqb] in A1, A2, A3, A4;
  try (destruct K1 as (? & ? & ? & ? & ? & ? & ? & ? & ? & ? & ? & ?)); try (destruct K2 as (? & ? & ? & ? & ? & ? & ?));
  try (destruct K3 as (? & ? & ? & ? & ? & ? & ? & ? & ?)); try (destruct K4 as (? & ? & ?));
  unfold fnav_eph; rds;
  closed_tests; cbn [svid_of fnav_of];
  try (now destruct (svid =? _)).
  destruct (svid =? svid1); cbn [negb]; [|reflexivity].
  destruct (iod =? iod2); [|reflexivity]. destruct (iod =? iod3); [|reflexivity]. destruct (iod =? iod4); [|reflexivity].
  cbn [negb orb andb]. rds. unfold gal_attr. unfold U in *.
  rewrite adj_near, sisa_eq, svh_eq2 by assumption. rewrite !gst_exact by lia.
  replace (toc * 60) with (60 * toc) by lia. replace (toe * 60) with (60 * toe) by lia. reflexivity.
Qed.
