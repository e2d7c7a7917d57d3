(** GPS/QZSS CNAV and CNAV-2. *)
From Verif Require Import SatModel SatProofs TimeModel TimeSpec TimeProofs CssrState CssrFacts RawModel RawSpec RawFacts RawGal RawLnav RawProofs NavModel NavSpec NavFacts.
From Verif Require Import Base BaseFacts FieldFacts.
From Coq Require Import ZifyBool ZifyNat.
Notation length := List.length.
Open Scope Z_scope.

Definition cemp : list field :=
  [(14 # 0); (6 # 0); (18 # 0); (11 # 0); (5 # 0); (3 # 0); (3 # 0); (11 # 0); (26 # 0); (20 # 0); (10 # 0); (177 # 0)].
Definition cfl (prn : Z) (f : cframe) : list field := cframe_fields prn f.
Definition cslot_ok (sys : gnss) (k : Z) (o : option cframe) : Prop := match o with Some f => cframe_ok f /\ cslot sys (c_body f) = k | None => True end.
Lemma cslot0 sys o : cslot_ok sys 0 o -> o = None \/ exists tow al wn svh top ue toe dA Ad dn dnd M0 e omg isf esf sp tl,
  o = Some (CF tow al (C10 wn svh top ue toe dA Ad dn dnd M0 e omg isf esf sp) tl) /\ cframe_ok (CF tow al (C10 wn svh top ue toe dA Ad dn dnd M0 e omg isf esf sp) tl).
Proof.
  destruct o as [[? ? [] ?]|]; cbn [cslot_ok cslot c_body]; intros H; try (now left); right; destruct H as [H E]; try discriminate; [exs|].
  destruct ((id =? 61) && negb (gnss_eqb sys QZS)); discriminate.
Qed.
Lemma cslot1 sys o : cslot_ok sys 1 o -> o = None \/ exists tow al toe a b c d e f g h i j sp tl,
  o = Some (CF tow al (C11 toe a b c d e f g h i j sp) tl) /\ cframe_ok (CF tow al (C11 toe a b c d e f g h i j sp) tl).
Proof.
  destruct o as [[? ? [] ?]|]; cbn [cslot_ok cslot c_body]; intros H; try (now left); right; destruct H as [H E]; try discriminate; [exs|].
  destruct ((id =? 61) && negb (gnss_eqb sys QZS)); discriminate.
Qed.
Lemma cslot2 sys o : cslot_ok sys 2 o -> o = None \/
  (exists tow al id top u0 u1 u2 toc a0 a1 a2 tgd i1 i2 i3 i4 io wo sp tl,
    o = Some (CF tow al (C30 id top u0 u1 u2 toc a0 a1 a2 tgd i1 i2 i3 i4 io wo sp) tl) /\
    cframe_ok (CF tow al (C30 id top u0 u1 u2 toc a0 a1 a2 tgd i1 i2 i3 i4 io wo sp) tl)) \/
  (exists tow al id top u0 u1 u2 toc a0 a1 a2 bd tl, o = Some (CF tow al (Cck id top u0 u1 u2 toc a0 a1 a2 bd) tl) /\
    cframe_ok (CF tow al (Cck id top u0 u1 u2 toc a0 a1 a2 bd) tl)).
Proof.
  destruct o as [[? ? [] ?]|]; cbn [cslot_ok cslot c_body]; intros H; try (now left); right; destruct H as [H E]; try discriminate; [left; exs|right; exs].
Qed.

Lemma integ3 a b c : U 1 a -> U 1 b -> U 1 c -> Z.lor (Z.lor (Z.shiftl a 2) (Z.shiftl b 1)) c = 4 * a + 2 * b + c.
Proof.
  unfold U. intros Ha Hb Hc. assert (Ea : a = 0 \/ a = 1) by lia. assert (Eb : b = 0 \/ b = 1) by lia. assert (Ec : c = 0 \/ c = 1) by lia.
  destruct Ea as [->| ->]; destruct Eb as [->| ->]; destruct Ec as [->| ->]; reflexivity.
Qed.
Lemma integ2 b c : U 1 b -> U 1 c -> Z.lor (Z.shiftl b 1) c = 2 * b + c.
Proof. intros Hb Hc. apply (integ3 0 b c); [split; [discriminate|reflexivity]|assumption|assumption]. Qed.
Definition opw (wn w8 : Z) : Z := 256 * (wn / 256) + w8.
Lemma aref_eq sys : a_ref sys = match sys with GPS => 26559710 | _ => 42164200 end.
Proof. now destruct sys. Qed.
Lemma cnav_eph_ok sys sat b n o1 o2 o3 :
  cslot_ok sys 0 o1 -> cslot_ok sys 1 o2 -> cslot_ok sys 2 o3 ->
  At b 0 (enc (slotf (cfl n) cemp o1)) -> At b 304 (enc (slotf (cfl n) cemp o2)) -> At b (304*2) (enc (slotf (cfl n) cemp o3)) ->
  cnav_eph sys sat b = Some (cnav_of sys sat opw (o1, o2, o3)).
Proof.
  intros H1 H2 H3 A1 A2 A3.
  destruct (cslot0 sys o1 H1) as [->|(tow & al & wn & svh & top & ue & toe & dA & Ad & dn & dnd & M0 & e & omg & isf & esf & sp & tl & -> & K1)];
  destruct (cslot1 sys o2 H2) as [->|(tow2 & al2 & toe2 & OMG0 & i0 & OMGd & idot & cis & cic & crs & crc & cus & cuc & sp2 & tl2 & -> & K2)];
  destruct (cslot2 sys o3 H3) as [->|[(tow3 & al3 & id & top3 & u0 & u1 & u2 & toc & a0 & a1 & a2 & tgd & i1 & i2 & i3 & i4 & io & wo & sp3 & tl3 & -> & K3)
                                     |(tow3 & al3 & id & top3 & u0 & u1 & u2 & toc & a0 & a1 & a2 & bd & tl3 & -> & K3)]];
  clear H1 H2 H3; unfold cemp in *;
  cbn [slotf cemp cfl cframe_fields cbody_fields c_tow c_alert c_body c_tail ctype app] in A1, A2, A3;
  try (destruct K1 as (? & ? & ? & ? & ? & ? & ? & ? & ? & ? & ? & ? & ? & ? & ?)); try (destruct K2 as (_ & _ & ? & ? & ? & ? & ? & ? & ? & ? & ? & ? & ?));
  try (destruct K3 as (_ & _ & Kid & K3)); cbn [c_tow c_alert] in *;
  (try assert (Uid : U 6 id) by (unfold U; lia));
  unfold cnav_eph; rds; closed_tests; cbn [cnav_of c_body]; try reflexivity; cbn [negb orb]; cbv iota.
  - cbn [Z.div Z.div_eucl Z.eqb Pos.eqb negb andb]. destruct (gnss_eqb sys QZS); cbn [andb]; [reflexivity|]. rds.
    destruct ((negb (toe =? toe2)) || negb (toe =? 0)); [reflexivity|]. rds. reflexivity.
  - destruct K3 as (? & ? & ? & ? & ? & ? & ? & ? & ? & ? & ? & ? & ? & ?).
    assert (E1 : negb (id / 10 =? 3) && (gnss_eqb sys QZS && negb (id =? 61)) = false).
    { destruct Kid as [-> | ->]; [reflexivity|]. cbn [Z.eqb Pos.eqb negb]. now rewrite !andb_false_r. }
    rewrite E1. rds.
    assert (E2 : (id =? 30) || (id =? 61) = true) by (destruct Kid as [-> | ->]; reflexivity).
    destruct (toe =? toe2) eqn:Et; cbn [negb orb andb]; [|reflexivity]. destruct (toe =? toc) eqn:Et'; cbn [negb]; [|reflexivity]. rds.
    rewrite E2. rds. cbn [c_tow c_alert]. unfold opw.
    apply Z.eqb_eq in Et, Et'. subst toe2 toc. rewrite integ3 by assumption. rewrite aref_eq. change 512 with (2 ^ 9).
    replace (wn / 256 * 256) with (256 * (wn / 256)) by lia. replace (toe * 300) with (300 * toe) by lia. replace (tow * 6) with (6 * tow) by lia.
    replace (top3 * 300) with (300 * top3) by lia. unfold U in *.
    rewrite adj_near, !gpst_exact by lia. reflexivity.
  - assert (E1 : negb (id / 10 =? 3) && (gnss_eqb sys QZS && negb (id =? 61)) = false).
    { assert (id / 10 = 3) as -> by (assert (HH : 3 <= id / 10 < 4) by (split; [apply Z.div_le_lower_bound; lia|apply Z.div_lt_upper_bound; lia]); lia). reflexivity. }
    rewrite E1. rds. destruct ((negb (toe =? toe2)) || negb (toe =? toc)); [reflexivity|]. rds.
    replace ((id =? 30) || (id =? 61)) with false by lia. reflexivity.
Qed.
