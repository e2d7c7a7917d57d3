(** GPS/QZSS CNAV message by message, and CNAV-2. *)
From Verif Require Import SatModel SatProofs TimeModel TimeSpec TimeProofs CssrState CssrFacts RawModel RawSpec RawFacts RawGal RawLnav RawProofs NavModel NavSpec NavFacts NavCnav.
From Verif Require Import Base BaseFacts FieldFacts.
From Coq Require Import ZifyBool ZifyNat.
Notation length := List.length.
Open Scope Z_scope.

(* ---------- buffers ---------- *)
Definition cnum (sys : gnss) (prn : Z) : Z := match sys with QZS => prn - 192 | _ => prn end.
Definition cinv (sys : gnss) (lo hi : Z) (h : list cev) (d : dict Z bits) : Prop :=
  slots (cwant sys) (fun q => cfl (cnum sys q)) cemp (fun k => 0 <= k <= 2) (fun k => (304 * Z.to_nat k)%nat) (fun q => lo <= q <= hi) (fun q => q - lo) h d.
Lemma cframe_width n f : length (enc (cframe_fields n f)) = 304%nat.
Proof. rewrite enc_length. destruct f as [? ? [] ?]; reflexivity. Qed.
Lemma cslotf_width n o : length (enc (slotf (cfl n) cemp o)) = 304%nat.
Proof. destruct o; [apply cframe_width|now rewrite enc_length]. Qed.
Lemma cwant_ok sys h prn k : Forall cev_ok h -> cslot_ok sys k (last_of (cwant sys prn k) h).
Proof.
  intros H. destruct (last_of (cwant sys prn k) h) eqn:E; [|exact Logic.I].
  apply last_in in E. destruct E as (e & He & Hw). rewrite Forall_forall in H. destruct (H e He) as [_ Hf]. unfold cwant in Hw.
  destruct (gnss_eqb (ce_sys e) sys && (ce_prn e =? prn) && (cslot sys (c_body (ce_frame e)) =? k)) eqn:C; [|discriminate]. injection Hw as <-.
  split; [exact Hf|]. lia.
Qed.
Lemma ctype_range b : cbody_ok b -> U 6 (ctype b).
Proof. destruct b; cbn [cbody_ok ctype]; intros H; unfold U in *; try lia. Qed.
Lemma cheads n f rest : U 6 n -> cframe_ok f -> let m := enc (cframe_fields n f) ++ rest in
  getu m 0 8 = Some 139 /\ getu m 8 6 = Some n /\ getu m 14 6 = Some (ctype (c_body f)).
Proof.
  intros Hn (_ & _ & Hf) m. apply ctype_range in Hf.
  assert (A : At m 0 (enc (cframe_fields n f))) by (exists [], rest; split; reflexivity).
  unfold cframe_fields in A. set (r := cbody_fields (c_body f) ++ _) in A. clearbody r. cbn [app] in A. clearbody m.
  split; [|split].
  - eapply getu_u; [exact A|reflexivity|reflexivity|]. split; [discriminate|reflexivity].
  - eapply getu_u; [exact A|reflexivity|reflexivity|]. exact Hn.
  - eapply getu_u; [exact A|reflexivity|reflexivity|]. exact Hf.
Qed.
Lemma chead n f rest : RawModel.head 38 (enc (cframe_fields n f) ++ rest) = enc (cframe_fields n f).
Proof.
  unfold RawModel.head. change (8 * 38)%nat with 304%nat. pose proof (cframe_width n f) as W. rewrite firstn_app, W, Nat.sub_diag, firstn_O, app_nil_r.
  apply firstn_all2. lia.
Qed.
(** where a message goes *)
Lemma cstore_eq sys f b x : cbody_ok (c_body f) -> length x = 304%nat -> (200 <= bytelen b)%nat ->
  (let sid := ctype (c_body f) in
   if (sid =? 10) || (sid =? 11) then setslice b ((sid - 10) * 38) ((sid - 10) * 38 + 38) x
   else if ((sid >=? 30) && (sid <=? 37)) || (gnss_eqb sys QZS && (sid =? 61)) then setslice b (2 * 38) (2 * 38 + 38) x else b)
  = let k := cslot sys (c_body f) in if k <? 0 then b else splice b (304 * Z.to_nat k) x.
Proof.
  intros H L B. cbv zeta. destruct (c_body f); cbn [ctype cslot cbody_ok] in *.
  - rewrite setslice_splice by lia. reflexivity.
  - rewrite setslice_splice by lia. reflexivity.
  - destruct H as [[-> | ->] _]; cbn [Z.eqb Pos.eqb orb andb].
    + change ((30 >=? 30) && (30 <=? 37)) with true. cbn [orb Z.ltb Z.compare]. rewrite setslice_splice by lia. reflexivity.
    + change ((61 >=? 30) && (61 <=? 37)) with false. cbn [orb]. rewrite andb_true_r. destruct (gnss_eqb sys QZS); cbn [negb Z.ltb Z.compare]; [|reflexivity].
      rewrite setslice_splice by lia. reflexivity.
  - replace ((id =? 10) || (id =? 11)) with false by lia. replace ((id >=? 30) && (id <=? 37)) with true by lia. cbn [orb Z.ltb Z.compare].
    rewrite setslice_splice by lia. reflexivity.
  - replace ((id =? 10) || (id =? 11)) with false by lia. replace (((id >=? 30) && (id <=? 37)) || (gnss_eqb sys QZS && (id =? 61))) with false by lia. reflexivity.
Qed.
Lemma known_eq id : negb (negb ((id =? 10) || (id =? 11) || (id =? 12) || (id =? 15) || (id =? 60) || (id =? 61)) && ((id <? 30) || (id >? 37))) = known id.
Proof. unfold known. cbn [existsb]. lia. Qed.
Lemma cslot_known sys b : cbody_ok b -> 0 <= cslot sys b -> known (ctype b) = true.
Proof.
  intros H Hs. rewrite <- known_eq. destruct b; cbn [ctype cslot cbody_ok] in *; try lia.
Qed.
Lemma cslot_le sys b : cslot sys b <= 2.
Proof. destruct b; cbn [cslot]; try lia. destruct ((id =? 61) && negb (gnss_eqb sys QZS)); lia. Qed.
Lemma cstep_buf sys lo hi h d q f rest : (forall p, lo <= p <= hi -> U 6 (cnum sys p)) -> lo <= q <= hi -> Forall cev_ok h ->
  cframe_ok f -> cev_ok (CE sys q f rest) -> cinv sys lo hi h d ->
  let e := CE sys q f rest in
  exists b, zget (q - lo) d = Some b /\ (200 <= bytelen b)%nat /\
    let k := cslot sys (c_body f) in
    let b2 := if k <? 0 then b else splice b (304 * Z.to_nat k) (enc (cframe_fields (cnum sys q) f)) in
    let l j := last_of (cwant sys q j) (h ++ [e]) in
    cnav_eph sys (prn2sat sys q) b2 = Some (cnav_of sys (prn2sat sys q) opw (l 0, l 1, l 2)) /\
    cinv sys lo hi (h ++ [e]) (zset (q - lo) b2 d) /\ (k < 0 -> cinv sys lo hi (h ++ [e]) d).
Proof.
  intros Hn Hq Hh Hf He Hi e. destruct (Hi q Hq) as (b & Eb & Lb & Bb & Ab). exists b. split; [exact Eb|]. split; [exact Bb|].
  intros k b2 l. pose proof (cframe_width (cnum sys q) f) as W. pose proof (cslot_le sys (c_body f)) as Hk. fold k in Hk.
  assert (L2 : length b2 = length b) by (unfold b2; destruct (k <? 0); [reflexivity|rewrite splice_length; lia]).
  assert (B2 : bytelen b2 = bytelen b) by (unfold bytelen; now rewrite L2).
  assert (A2 : forall j, 0 <= j <= 2 -> At b2 (304 * Z.to_nat j) (enc (slotf (cfl (cnum sys q)) cemp (l j)))).
  { intros j Hj. unfold l. rewrite last_snoc. unfold cwant at 1, e. cbn [ce_sys ce_prn ce_frame]. rewrite gnss_eqb_refl, Z.eqb_refl. cbn [andb]. fold k.
    destruct (Z.eqb_spec k j) as [->|Hne].
    - unfold b2. replace (j <? 0) with false by lia. cbn [slotf]. unfold cfl. apply splice_at. rewrite W. lia.
    - unfold b2. destruct (k <? 0) eqn:Ek; [now apply Ab|]. apply At_keep; [now apply Ab|lia|]. rewrite cslotf_width, W. lia. }
  assert (Hh' : Forall cev_ok (h ++ [e])) by (apply Forall_app; split; [exact Hh|apply Forall_cons; [exact He|apply Forall_nil]]).
  split; [|split].
  - apply (cnav_eph_ok sys (prn2sat sys q) b2 (cnum sys q)); try (now apply cwant_ok).
    + exact (A2 0 ltac:(lia)). + exact (A2 1 ltac:(lia)). + exact (A2 2 ltac:(lia)).
  - unfold cinv in *. apply (slots_put (cwant sys) (fun q => cfl (cnum sys q)) cemp (fun k => 0 <= k <= 2) (fun k => (304 * Z.to_nat k)%nat) (fun q => lo <= q <= hi) (fun q => q - lo) h d e q b b2); try assumption.
    + intros p Hp E. lia.
    + intros p j Hp Hne. unfold cwant, e. cbn [ce_sys ce_prn]. replace (q =? p) with false by lia. now rewrite andb_false_r.
    + rewrite L2, B2. exact Lb.
    + lia.
  - intros Hk0. unfold cinv in *. apply slots_skip; [|exact Hi]. intros p j Hp Hj. unfold cwant, e. cbn [ce_sys ce_prn ce_frame]. fold k.
    replace (k =? j) with false by lia. now rewrite andb_false_r.
Qed.
Lemma cinv_other sys lo hi h d e : ce_sys e <> sys -> cinv sys lo hi h d -> cinv sys lo hi (h ++ [e]) d.
Proof.
  intros Hs Hi. apply slots_skip; [|exact Hi]. intros p j Hp Hj. unfold cwant. now rewrite gnss_eqb_neq.
Qed.
Definition cst_inv (h : list cev) (s : cnavst) : Prop := cinv GPS 1 32 h (gps_cnav s) /\ cinv QZS 193 209 h (qzs_cnav s).
Definition cresult (h : list cev) (e : cev) : option eph :=
  if known (ctype (c_body (ce_frame e))) then
    let l j := last_of (cwant (ce_sys e) (ce_prn e) j) h in
    cnav_of (ce_sys e) (prn2sat (ce_sys e) (ce_prn e)) opw (l 0, l 1, l 2)
  else None.
Lemma cnav_step h s e : Forall cev_ok h -> cev_ok e -> cst_inv h s ->
  exists s', cfeed e s = Some (s', cresult (h ++ [e]) e) /\ cst_inv (h ++ [e]) s'.
Proof.
  intros Hh He [I1 I2]. destruct e as [sys q f rest]. pose proof He as He0. destruct He as [Hq Hf]. cbn [ce_sys ce_prn ce_frame] in *.
  unfold cfeed, cresult. cbn [ce_sys ce_prn ce_frame]. set (e := CE sys q f rest) in *.
  assert (Hb : cbody_ok (c_body f)) by apply Hf.
  pose proof (known_eq (ctype (c_body f))) as Ek. cbv zeta.
  destruct Hq as [[-> Hq] | [-> Hq]].
  - destruct (sat2prn_prn2sat GPS q Hq) as [Es _]. unfold decode_gps_cnav. rewrite Es. cbv beta iota.
    destruct (cheads q f rest ltac:(unfold U; lia) Hf) as (G1 & G2 & G3).
    destruct (cstep_buf GPS 1 32 h (gps_cnav s) q f rest ltac:(intros; unfold U, cnum; lia) Hq Hh Hf He0 I1) as (b & Eb & Bb & R & J1 & J2).
    cbv zeta in R, J1, J2. rewrite Eb. cbn [bind]. unfold cev_bits, e. cbn [ce_sys ce_prn ce_frame ce_rest]. rewrite G1, G2, G3. cbn [bind].
    change (gnss_eqb GPS QZS) with false. cbn [andb]. rewrite (Z.eqb_refl q). cbn [Z.eqb Pos.eqb negb orb].
    rewrite <- (negb_involutive (negb _ && _)), Ek. destruct (known (ctype (c_body f))) eqn:Kn; cbn [negb].
    + rewrite chead. pose proof (cstore_eq GPS f b (enc (cframe_fields q f)) Hb (cframe_width q f) Bb) as St. cbv zeta in St. change (gnss_eqb GPS QZS) with false in St. cbn [andb] in St.
      rewrite St. cbn [cnum] in *. rewrite R. cbn [bind]. eexists. split; [reflexivity|]. split; cbn [gps_cnav qzs_cnav]; [exact J1|]. apply cinv_other; [discriminate|exact I2].
    + eexists. split; [reflexivity|]. split.
      * apply J2. destruct (Z.ltb_spec (cslot GPS (c_body f)) 0) as [|Hs]; [assumption|]. rewrite (cslot_known GPS _ Hb Hs) in Kn. discriminate.
      * apply cinv_other; [discriminate|exact I2].
  - destruct (sat2prn_prn2sat QZS q Hq) as [Es _]. unfold decode_gps_cnav. rewrite Es. cbv beta iota.
    destruct (cheads (q - 192) f rest ltac:(unfold U; lia) Hf) as (G1 & G2 & G3).
    destruct (cstep_buf QZS 193 209 h (qzs_cnav s) q f rest ltac:(intros; unfold U, cnum; lia) Hq Hh Hf He0 I2) as (b & Eb & Bb & R & J1 & J2).
    cbv zeta in R, J1, J2. rewrite Eb. cbn [bind]. unfold cev_bits, e. cbn [ce_sys ce_prn ce_frame ce_rest]. rewrite G1, G2, G3. cbn [bind].
    change (gnss_eqb QZS QZS) with true. cbn [andb]. replace (q =? q - 192 + 192) with true by lia. cbn [Z.eqb Pos.eqb negb orb].
    rewrite <- (negb_involutive (negb _ && _)), Ek. destruct (known (ctype (c_body f))) eqn:Kn; cbn [negb].
    + rewrite chead. pose proof (cstore_eq QZS f b (enc (cframe_fields (q - 192) f)) Hb (cframe_width (q - 192) f) Bb) as St. cbv zeta in St. change (gnss_eqb QZS QZS) with true in St. cbn [andb] in St.
      rewrite St. cbn [cnum] in *. rewrite R. cbn [bind]. eexists. split; [reflexivity|]. split; cbn [gps_cnav qzs_cnav]; [apply cinv_other; [discriminate|exact I1]|exact J1].
    + eexists. split; [reflexivity|]. split.
      * apply cinv_other; [discriminate|exact I1].
      * apply J2. destruct (Z.ltb_spec (cslot QZS (c_body f)) 0) as [|Hs]; [assumption|]. rewrite (cslot_known QZS _ Hb Hs) in Kn. discriminate.
Qed.
Lemma cnav_start : cst_inv [] cnav_new.
Proof.
  split; intros q Hq; cbn [cnav_new gps_cnav qzs_cnav]; exists (zbytes 200).
  - split; [apply fresh_get; lia|]. split; [reflexivity|]. split; [reflexivity|]. intros k Hk. cbn [last_of]. apply zb; [rewrite cslotf_width; lia|reflexivity].
  - split; [apply fresh_get; lia|]. split; [reflexivity|]. split; [reflexivity|]. intros k Hk. cbn [last_of]. apply zb; [rewrite cslotf_width; lia|reflexivity].
Qed.
Lemma cnav_run h : Forall cev_ok h -> exists s, cfeeds h cnav_new = Some s /\ cst_inv h s.
Proof.
  induction h as [|e h IH] using rev_ind; intros H; [exists cnav_new; split; [reflexivity|apply cnav_start]|].
  apply Forall_app in H. destruct H as [Hh He]. inversion He as [|? ? He' _]. subst.
  destruct (IH Hh) as (s & E & Hi). destruct (cnav_step h s e Hh He' Hi) as (s' & E' & Hi').
  exists s'. split; [|exact Hi']. unfold cfeeds in *. rewrite mfold_snoc, E. cbn [bind]. rewrite E'. reflexivity.
Qed.
Lemma cnav_any h e : Forall cev_ok h -> cev_ok e -> exists s s', cfeeds h cnav_new = Some s /\ cfeed e s = Some (s', cresult (h ++ [e]) e).
Proof.
  intros Hh He. destruct (cnav_run h Hh) as (s & E & Hi). destruct (cnav_step h s e Hh He Hi) as (s' & E' & _). eauto.
Qed.

(* ---------- CNAV-2 ---------- *)
Lemma cnav2_ok sys prn f rest : (sys = GPS /\ 1 <= prn <= 32 \/ sys = QZS /\ 193 <= prn <= 209) -> c2_ok f ->
  decode_gps_cnav2 (prn2sat sys prn) (enc (c2_fields f) ++ rest)
  = Some (cnav2_of sys (prn2sat sys prn) opw (near_week (q_wn f) (q_toe f) (c2_tow f)) f).
Proof.
  intros Hs (K1 & K2 & K3 & K4 & K5).
  assert (Es : sat2prn (prn2sat sys prn) = (sys, prn)) by (destruct Hs as [[-> H]|[-> H]]; now apply sat2prn_prn2sat).
  unfold decode_gps_cnav2. rewrite Es. cbv beta iota. set (b := enc (c2_fields f) ++ rest).
  assert (A : At b 0 (enc (c2_fields f))) by (exists [], rest; split; reflexivity). clearbody b.
  destruct f as [toi t1 wn itow top svh ued toe dA Ad dn dnd M0 e omg OMG0 i0 OMGd idot cis cic crs crc cus cuc u0 u1 u2 a0 a1 a2 tgd ip id isf wo esf gap pr page].
  unfold c2_fields in A. cbn [q_toi q_t1 q_wn q_itow q_top q_svh q_ura_ed q_toe q_dA q_Adot q_deln q_delnd q_M0 q_e q_omg q_OMG0 q_i0 q_OMGd q_idot
    q_cis q_cic q_crs q_crc q_cus q_cuc q_ura0 q_ura1 q_ura2 q_af0 q_af1 q_af2 q_tgd q_iscp q_iscd q_isf q_wnop q_esf q_gap q_prn q_page] in *.
  destruct K1 as (? & ? & ? & ? & ? & ? & ?). destruct K2 as (? & ? & ? & ? & ? & ? & ? & ? & ? & ? & ?). destruct K3 as (? & ? & ? & ? & ? & ?).
  destruct K4 as (? & ? & ? & ? & ? & ? & ? & ? & ? & ? & ? & ?).
  destruct page as [page utc io i1 i2 i3 i4|page bd]; cbn [c2page_fields c2page_ok app] in *.
  - destruct K5 as (Kp & ? & ? & ? & ?). assert (Up : U 6 page) by (unfold U; lia). rds.
    assert (E2 : (page =? 1) || (page =? 61) = true) by lia. rewrite E2. cbn [negb]. rds. unfold cnav2_of, c2_tow.
    cbn [q_toi q_t1 q_wn q_itow q_top q_svh q_ura_ed q_toe q_dA q_Adot q_deln q_delnd q_M0 q_e q_omg q_OMG0 q_i0 q_OMGd q_idot
    q_cis q_cic q_crs q_crc q_cus q_cuc q_ura0 q_ura1 q_ura2 q_af0 q_af1 q_af2 q_tgd q_iscp q_iscd q_isf q_wnop q_esf q_gap q_prn q_page].
    unfold opw. rewrite integ2 by assumption. rewrite aref_eq. change 512 with (2 ^ 9).
    replace (wn / 256 * 256) with (256 * (wn / 256)) by lia. replace (toe * 300) with (300 * toe) by lia. replace (itow * 7200 + toi * 18) with (7200 * itow + 18 * toi) by lia.
    replace (top * 300) with (300 * top) by lia. unfold U in *.
    rewrite adj_near, !gpst_exact by lia. reflexivity.
  - destruct K5 as (Kp & ? & ?). assert (Up : U 6 page) by (unfold U; lia). rds.
    assert (E2 : (page =? 1) || (page =? 61) = false) by lia. rewrite E2. reflexivity.
Qed.
