(** GPS/QZSS LNAV: the ephemeris from a buffer whose slots hold given subframes. *)
From Verif Require Import SatModel TimeModel TimeSpec TimeProofs CssrState CssrFacts RawModel RawSpec RawFacts RawGal.
From Verif Require Import Base BaseFacts FieldFacts.
From Coq Require Import ZifyBool ZifyNat.
Notation length := List.length.
Open Scope Z_scope.

Definition sslot (o : option sframe) : list field :=
  match o with Some f => sframe_fields f | None => [(53%nat, 0); (3%nat, 0); (264%nat, 0)] end.
Definition sslot_ok (k : Z) (o : option sframe) : Prop := match o with Some f => sframe_ok f /\ sid (s_body f) = k | None => True end.
Lemma sslot1 o : sslot_ok 1 o -> o = None \/ exists tlm tow al an t2 fi pa wn code ura svh iodc l2p r4 r5 r6 r7 tgd toc af2 af1 af0 t10,
  o = Some (SF tlm tow al an t2 (B1 wn code ura svh iodc l2p r4 r5 r6 r7 tgd toc af2 af1 af0 t10) fi pa) /\
  sframe_ok (SF tlm tow al an t2 (B1 wn code ura svh iodc l2p r4 r5 r6 r7 tgd toc af2 af1 af0 t10) fi pa).
Proof. destruct o as [[? ? ? ? ? [] ? ?]|]; cbn [sslot_ok sid s_body]; intros H; try (now left); right; destruct H as [H E]; try discriminate; [exs|]. destruct H as [_ H]. cbn in H. lia. Qed.
Lemma sslot2 o : sslot_ok 2 o -> o = None \/ exists tlm tow al an t2 fi pa iode crs deln M0 cuc e cus sqrtA toe fit aodo t10,
  o = Some (SF tlm tow al an t2 (B2 iode crs deln M0 cuc e cus sqrtA toe fit aodo t10) fi pa) /\
  sframe_ok (SF tlm tow al an t2 (B2 iode crs deln M0 cuc e cus sqrtA toe fit aodo t10) fi pa).
Proof. destruct o as [[? ? ? ? ? [] ? ?]|]; cbn [sslot_ok sid s_body]; intros H; try (now left); right; destruct H as [H E]; try discriminate; [exs|]. destruct H as [_ H]. cbn in H. lia. Qed.
Lemma sslot3 o : sslot_ok 3 o -> o = None \/ exists tlm tow al an t2 fi pa cic OMG0 cis i0 crc omg OMGd iode idot t10,
  o = Some (SF tlm tow al an t2 (B3 cic OMG0 cis i0 crc omg OMGd iode idot t10) fi pa) /\
  sframe_ok (SF tlm tow al an t2 (B3 cic OMG0 cis i0 crc omg OMGd iode idot t10) fi pa).
Proof. destruct o as [[? ? ? ? ? [] ? ?]|]; cbn [sslot_ok sid s_body]; intros H; try (now left); right; destruct H as [H E]; try discriminate; [exs|]. destruct H as [_ H]. cbn in H. lia. Qed.

Lemma iodc_join v : U 10 v -> Z.lor (v mod 2 ^ Z.of_nat 8) (Z.shiftl ((v / 2 ^ 8) mod 2 ^ Z.of_nat 2) 8) = v.
Proof.
  intros H. rewrite <- (Z.lor_comm (Z.shiftl _ _)). unfold U in H.
  change (Z.of_nat 8) with 8. change (Z.of_nat 2) with 2.
  rewrite (Z.mod_small (v / 2 ^ 8)) by (split; [apply Z.div_pos; lia|apply Z.div_lt_upper_bound; lia]).
  rewrite <- Z.shiftr_div_pow2 by lia. rewrite <- Z.land_ones by lia. rewrite Z.lor_comm.
  apply Z.bits_inj'. intros n Hn. rewrite Z.lor_spec, Z.land_spec.
  destruct (Z.ltb_spec n 8).
  - rewrite Z.ones_spec_low by lia. rewrite Z.shiftl_spec_low by lia. rewrite andb_true_r, orb_false_r. reflexivity.
  - rewrite Z.ones_spec_high by lia. rewrite andb_false_r. cbn [orb]. rewrite Z.shiftl_spec by lia. rewrite Z.shiftr_spec by lia.
    f_equal. lia.
Qed.
Lemma sgn_join v : S_ 32 v -> sgn 32 (join32 ((v / 2 ^ 24) mod 2 ^ Z.of_nat 8) (v mod 2 ^ Z.of_nat 24)) = v.
Proof. intros H. rewrite join_mod. apply sgn_s; [lia|exact H]. Qed.
Lemma uns_join v : U 32 v -> join32 ((v / 2 ^ 24) mod 2 ^ Z.of_nat 8) (v mod 2 ^ Z.of_nat 24) = v.
Proof. intros H. rewrite join_mod. apply Z.mod_small. exact H. Qed.
Lemma land255 v : Z.land v 255 = v mod 256.
Proof. change 255 with (Z.ones 8). now rewrite Z.land_ones by lia. Qed.
Lemma ura_some u : U 4 u -> exists x, urai2sva u = Some x /\ nth_error ura_cm (Z.to_nat u) = Some x.
Proof.
  intros H. unfold U in H. unfold urai2sva. fold ura_cm.
  destruct (nth_error ura_cm (Z.to_nat u)) eqn:E; [eauto|]. apply nth_error_None in E. cbn in E. lia.
Qed.

Lemma lnav_eph_ok week sat b o1 o2 o3 :
  sslot_ok 1 o1 -> sslot_ok 2 o2 -> sslot_ok 3 o3 ->
  At b 0 (enc (sslot o1)) -> At b 320 (enc (sslot o2)) -> At b (320*2) (enc (sslot o3)) ->
  lnav_eph week sat b = Some (lnav_of week sat (sgn 32) (at_week bds0) (o1, o2, o3)).
Proof.
  intros H1 H2 H3 A1 A2 A3. apply sslot1 in H1. apply sslot2 in H2. apply sslot3 in H3.
  destruct H1 as [->|(tlm & tow & al & an & t2 & fi & pa & wn & code & ura & svh & iodc & l2p & r4 & r5 & r6 & r7 & tgd & toc & af2 & af1 & af0 & t10 & -> & K1)];
  destruct H2 as [->|(tlm' & tow' & al' & an' & t2' & fi' & pa' & iode & crs & deln & M0 & cuc & e & cus & sqrtA & toe & fit & aodo & t10' & -> & K2)];
  destruct H3 as [->|(tlm3 & tow3 & al3 & an3 & t23 & fi3 & pa3 & cic & OMG0 & cis & i0 & crc & omg & OMGd & iode3 & idot & t103 & -> & K3)];
  cbn [sslot sframe_fields sframe_words body_words framed s_body s_tlm s_tow s_alert s_as s_t2 s_fill s_par sid app] in A1, A2, A3;
  try (destruct K1 as (? & ? & ? & ? & ? & ? & ? & ? & ? & ? & ? & ?)); try (destruct K2 as (_ & ? & ? & ? & ? & ? & ? & ? & ? & ?));
  try (destruct K3 as (_ & ? & ? & ? & ? & ? & ? & ? & ? & ?)); cbn [s_tow] in *;
  unfold lnav_eph; rds;
  closed_tests; cbn [lnav_of s_body]; try reflexivity.
  cbn [negb orb]. cbv iota. rds.
  rewrite iodc_join, land255 by assumption. rewrite (sgn_join M0), (sgn_join OMG0), (sgn_join i0), (sgn_join omg), (uns_join e), (uns_join sqrtA) by assumption.
  destruct (iode =? iode3); [|reflexivity]. destruct (iode =? iodc mod 256); [|reflexivity]. cbn [negb orb andb]. cbv iota.
  destruct (ura_some ura) as (x & E & E'); [assumption|]. rewrite E, E'. cbn [bind s_tow]. cbv zeta. unfold U in *.
  replace (week / 1024 * 1024) with (1024 * (week / 1024)) by lia. replace (toc * 16) with (16 * toc) by lia.
  replace (toe * 16) with (16 * toe) by lia. replace (tow * 6) with (6 * tow) by lia.
  rewrite adj_near, !gpst_exact, bdt_exact by lia. reflexivity.
Qed.
