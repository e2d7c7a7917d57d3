(** Properties C87, C88: RTCM ephemeris and station messages. *)
From Verif Require Import SatModel TimeModel TimeSpec TimeAdjust CssrState RawModel GloModel GloSpec NavSpec REphModel REphSpec REphProofs REphSta.
From Verif Require Import Base.
Notation length := List.length.
Open Scope Z_scope.

(** C87: at a receiver time [t] of the same 1024 weeks as the ephemeris, every field is reported with its scale factor.  Not shown
    (false, see below): weeks of the next or previous 1024. *)
Theorem C87_gps_partial : forall hd t f rest, rgps_ok f -> 86400 * gps0 <= t -> g_week f / 1024 = week_of t / 1024 ->
  decode_reph (GT t 0) (rmsg hd 1019 (rgps_fields f) rest) = Some (512%nat, rgps_of t f).
Proof. exact gps_ok. Qed.
Print Assumptions C87_gps_partial.
Theorem C87_qzss_partial : forall hd t f rest, rqzs_ok f -> 86400 * gps0 <= t -> g_week f / 1024 = week_of t / 1024 ->
  decode_reph (GT t 0) (rmsg hd 1044 (rqzs_fields f) rest) = Some (509%nat, rqzs_of t f).
Proof. exact qzs_ok. Qed.
Print Assumptions C87_qzss_partial.
Theorem C87_galileo_partial : forall hd t f rest, rgal_ok f -> 86400 * gps0 <= t -> l_week f / 1024 = week_of t / 1024 ->
  decode_reph (GT t 0) (rmsg hd (rgal_type f) (rgal_fields f) rest) = Some (match l_stat f with FN _ _ => 520%nat | IN _ _ _ _ _ => 528%nat end, rgal_of t f).
Proof. exact gal_ok. Qed.
Print Assumptions C87_galileo_partial.
(** NavIC: all but the clock acceleration, which is reported as the clock offset *)
Theorem C87_navic_partial : forall hd t f rest, rirn_ok f -> 86400 * gps0 <= t -> i_week f / 1024 = week_of t / 1024 ->
  decode_reph (GT t 0) (rmsg hd 1041 (rirn_fields f) rest) = Some (506%nat, rirn_of y_af0 t f).
Proof. exact irn_ok. Qed.
Print Assumptions C87_navic_partial.
(** BeiDou: the fields before Cus, except the clock acceleration *)
Theorem C87_bds_partial : forall hd t f rest, rbds_ok f -> exists e,
  decode_reph (GT t 0) (rmsg hd 1042 (rbds_fields f) rest) = Some (533%nat, e) /\ same_in bds_kept e (rbds_of t f) /\
  forall v, reports (Some (533%nat, e)) Faf2 v <-> v = V (y_af0 (d_kep f)) 66.
Proof. exact bds_ok. Qed.
Print Assumptions C87_bds_partial.
(** GLONASS, were the numbers two's complement: all but the second and third coordinates, which are reported as the first; the time of
    the frame and of the ephemeris are those nearest the receiver's time *)
Theorem C87_glonass_partial : forall hd t f rest, rglo_ok f -> 86400 * gps0 <= t -> exists tof, (forall x, -10800 <= x < 75600 -> nearest 86400 t x (tof x)) /\
  decode_reph (GT t 0) (rmsg hd 1020 (rglo_fields twos f) rest) = Some (384%nat, rglo_of c1 c1 tof f).
Proof. exact glo_ok. Qed.
Print Assumptions C87_glonass_partial.

Definition k0 : kep := KP 11 (-22) 33 2702000000 (-44) 55 (-66) (-77) 88 (-99) 111 (-122) 133 (-144) 155 450 450 (-166) 17 (-18).
Definition g0 : rgps := RG 7 2300 2 1 90 91 (-5) 3 1 1 k0.
Definition t0 : Z := 86400 * gps0 + 604800 * 2300 + 100.
Definition now0 : gtime := GT t0 0.
Example C87_example : rgps_ok g0 /\ rqzs_ok (RG 195 2300 2 1 90 91 (-5) 3 1 1 k0) /\ 86400 * gps0 <= t0 /\ g_week g0 / 1024 = week_of t0 / 1024 /\
  decode_reph now0 (rmsg 5 1019 (rgps_fields g0) []) = Some (512%nat, rgps_of t0 g0) /\
  decode_reph now0 (rmsg 5 1044 (rqzs_fields (RG 195 2300 2 1 90 91 (-5) 3 1 1 k0)) []) = Some (509%nat, rqzs_of t0 (RG 195 2300 2 1 90 91 (-5) 3 1 1 k0)).
Proof. repeat split; vm_compute; try reflexivity; discriminate. Qed.
Definition l0 (st : gstat) : rgal := RL 12 2300 77 107 (-6) st k0.
Example C87_galileo_example : let f := l0 (FN 2 1) in let g := l0 (IN (-9) 3 1 0 1) in rgal_ok f /\ rgal_ok g /\
  decode_reph now0 (rmsg 5 1045 (rgal_fields f) []) = Some (520%nat, rgal_of t0 f) /\ decode_reph now0 (rmsg 5 1046 (rgal_fields g) []) = Some (528%nat, rgal_of t0 g).
Proof. repeat split; vm_compute; try reflexivity; discriminate. Qed.
Definition i0 : rirn := RI 4 2300 3 (-7) 88 2 k0.
Definition d0 : rbds := RB 24 944 1 5 6 (-20) 30 1 k0.
Example C87_navic_example : rirn_ok i0 /\ decode_reph now0 (rmsg 5 1041 (rirn_fields i0) []) = Some (506%nat, rirn_of y_af0 t0 i0).
Proof. repeat split; vm_compute; try reflexivity; discriminate. Qed.
Definition attr (n : nat) (r : option (nat * rout)) : option (fld * val) := match r with Some (_, OEph e _) => nth_error e n | _ => None end.
Example C87_bds_example : rbds_ok d0 /\ attr 2 (decode_reph now0 (rmsg 5 1042 (rbds_fields d0) [])) = Some (Fe, V 33 33) /\
  attr 17 (decode_reph now0 (rmsg 5 1042 (rbds_fields d0) [])) = Some (Ftoc, T (bdt 944 3600)).
Proof. repeat split; vm_compute; try reflexivity; discriminate. Qed.
Definition o0 : rglo := RO 3 (-4) 1 0 2 5 31 1 0 1 22 (1000, -2000, 3000) (11000, -12000, 13000) (3, -4, 5) 1 (-77) 3 0 8888 (-9) 4 1 3 700 1 0 650 (-12345) 8 321 0.
Example C87_glonass_example : rglo_ok o0 /\ decode_reph now0 (rmsg 5 1020 (rglo_fields twos o0) []) = Some (384%nat, rglo_of c1 c1 (fun x => 86400 * gps0 + 604800 * 2300 + x) o0).
Proof. repeat split; vm_compute; try reflexivity; discriminate. Qed.

(** what the code does otherwise *)
Theorem C87_navic_refuted : exists t f, rirn_ok f /\ 86400 * gps0 <= t /\ i_week f / 1024 = week_of t / 1024 /\
  decode_reph (GT t 0) (rmsg 0 1041 (rirn_fields f) []) <> Some (506%nat, rirn_of y_af2 t f).
Proof. exists t0, i0. split; [|split; [|split]]; [repeat split; vm_compute; try reflexivity; discriminate|vm_compute; discriminate|vm_compute; reflexivity|vm_compute; discriminate]. Qed.
Print Assumptions C87_navic_refuted.
(** BeiDou: the square root of the semi-major axis is not the one sent, nor the clock acceleration *)
Theorem C87_bds_refuted : exists t f, rbds_ok f /\ attr 3 (decode_reph (GT t 0) (rmsg 0 1042 (rbds_fields f) [])) <> Some (FA, V (y_sA (d_kep f) * y_sA (d_kep f)) 38) /\
  attr 21 (decode_reph (GT t 0) (rmsg 0 1042 (rbds_fields f) [])) <> Some (Faf2, V (y_af2 (d_kep f)) 66).
Proof. exists t0, d0. split; [|split]; [repeat split; vm_compute; try reflexivity; discriminate|vm_compute; discriminate|vm_compute; discriminate]. Qed.
Print Assumptions C87_bds_refuted.
Definition gattr (n : nat) (r : option (nat * rout)) : option (gfld * val) := match r with Some (_, OGlo e) => nth_error e n | _ => None end.
(** GLONASS: the second coordinate of the position is not the one sent, in either coding; a negative first coordinate sent as sign and
    magnitude, as in GLONASS messages, is not read as such *)
Theorem C87_glonass_refuted : exists t f, rglo_ok f /\
  (forall sg, In sg [twos; signmag] -> gattr 5 (decode_reph (GT t 0) (rmsg 0 1020 (rglo_fields sg f) [])) <> Some (Gpos 1, V (1000 * c2 (o_p f)) 11)) /\
  gattr 10 (decode_reph (GT t 0) (rmsg 0 1020 (rglo_fields signmag f) [])) <> Some (Ggamn, V (o_gamn f) 40).
Proof.
  exists t0, o0. split; [|split]; [repeat split; vm_compute; try reflexivity; discriminate| |vm_compute; discriminate].
  intros sg [<-|[<-|[]]]; vm_compute; discriminate.
Qed.
Print Assumptions C87_glonass_refuted.
(** no SBAS ephemeris is ever decoded *)
Theorem C87_sbas_refuted : forall t hd body, length hd = 24%nat -> decode_reph t (hd ++ bitsof 12 1043 ++ body) = None.
Proof.
  intros t hd body L. unfold decode_reph. assert (E : getu (hd ++ bitsof 12 1043 ++ body) 24 12 = Some 1043); [|rewrite E; reflexivity].
  unfold getu. rewrite !app_length, L. replace (24 + 12 <=? 24 + (length (bitsof 12 1043) + length body))%nat with true by (symmetry; apply Nat.leb_le; cbn; lia).
  f_equal. unfold slice. rewrite skipn_app, skipn_all2 by lia. rewrite L. cbn [Nat.sub skipn app]. rewrite firstn_app. reflexivity.
Qed.
Print Assumptions C87_sbas_refuted.
(** an ephemeris of the last second of 1024 weeks, received a second later, is dated 1024 weeks late *)
Theorem C87_week_refuted : exists t f, rgps_ok f /\ 86400 * gps0 <= t /\ week_of t - 1 = g_week f /\
  attr 22 (decode_reph (GT t 0) (rmsg 0 1019 (rgps_fields f) [])) = Some (Fweek, I (g_week f + 1024)).
Proof.
  exists (86400 * gps0 + 604800 * 2048), (RG 7 2047 2 1 90 91 (-5) 3 1 1 k0).
  split; [|split; [|split]]; [repeat split; vm_compute; try reflexivity; discriminate|vm_compute; discriminate|vm_compute; reflexivity|vm_compute; reflexivity].
Qed.
Print Assumptions C87_week_refuted.

(** C88: a station message of any type changes exactly the attributes it carries, to the values sent (texts of any length that
    fit), and the decoder stops at its end *)
Theorem C88_station : forall hd s m rest, sta_ok m -> decode_sta s (smsg hd m rest) = Some (sta_after 0 m s, (36 + length (sta_bits m))%nat).
Proof. exact sta_all. Qed.
Print Assumptions C88_station.
Definition s0 : sta := Sta None None None (Some (1, 2, 3)) None None (Some [true]) None None None None None.
Example C88_example : let m := S1008 1234 [84; 82; 77] 3 [65; 66] in sta_ok m /\
  option_map (fun x => (s_desc (fst x), s_serial (fst x), s_pos (fst x), snd x)) (decode_sta s0 (smsg 7 m [true])) =
    Some (Some (text_bits [84; 82; 77]), Some (text_bits [65; 66]), Some (1, 2, 3), 112%nat) /\
  let m := S1230 1234 1 (Some (-5)) None None (Some 6) in sta_ok m /\
  option_map (fun x => (s_bias (fst x), snd x)) (decode_sta s0 (smsg 7 m [])) = Some (Some [-5; 0; 0; 6], 88%nat).
Proof. cbv zeta. repeat split; try (vm_compute; (reflexivity || discriminate || lia)); repeat constructor; vm_compute; (reflexivity || discriminate). Qed.
(** a bias that is not sent cannot be told from a bias of zero *)
Theorem C88_bias_refuted : exists a b s, a <> b /\ sta_ok a /\ sta_ok b /\ option_map fst (decode_sta s (smsg 0 a [])) = option_map fst (decode_sta s (smsg 0 b [])).
Proof.
  exists (S1230 1 1 (Some 0) None None None), (S1230 1 1 None None None None), s0.
  split; [discriminate|]. split; [|split]; [repeat split; vm_compute; (reflexivity || discriminate)|repeat split; vm_compute; (reflexivity || discriminate)|vm_compute; reflexivity].
Qed.
Print Assumptions C88_bias_refuted.
