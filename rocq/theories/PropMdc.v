(** C45, C62, C63, C64: MADOCA-PPP ionosphere areas and corrections. *)
From Coq Require Import Reals Lra.
From Verif Require Import SatModel SatSpec CssrState MdcModel MdcSpec MdcProofs Base.
Notation length := List.length.
Open Scope Z_scope.

(** C45: areas the regions have get distinct indices within the table of corrections of their own *)
Theorem C45_inet_partial : forall reg area reg' area', known_area reg area -> known_area reg' area' ->
  1 <= get_inet reg area <= 38 /\ (get_inet reg area = get_inet reg' area' -> reg = reg' /\ area = area').
Proof. intros. split; [now apply inet_range|now apply inet_inj]. Qed.
Print Assumptions C45_inet_partial.
Example C45_ex : map (fun p => get_inet (fst p) (snd p)) [(1, 1); (1, 8); (2, 1); (2, 16); (3, 5); (4, 1); (5, 1); (5, 8)] =
  [1; 8; 9; 24; 29; 30; 31; 38].
Proof. reflexivity. Qed.
(** any region and area number of a message gives an index inside the table *)
Theorem C45_inside : forall s reg area, history s -> uns 8 reg -> uns 5 area ->
  0 <= get_inet reg area < Z.of_nat (length (m_lc s)).
Proof.
  intros s reg area Hs Hr Ha. apply history_wf in Hs as (_ & _ & ->).
  pose proof (inet_nonneg reg area (proj1 Hr) (proj1 Ha)). unfold uns in Ha. change (2 ^ 5) with 32 in Ha. lia.
Qed.
Print Assumptions C45_inside.
(** other numbers share the entry of a known area *)
Theorem C45_refuted : exists reg area reg' area',
  uns 8 reg /\ uns 5 area /\ known_area reg' area' /\ (reg, area) <> (reg', area') /\ get_inet reg area = get_inet reg' area'.
Proof. exists 1, 9, 2, 1. unfold uns, known_area. repeat split; try (vm_compute; congruence). Qed.
Print Assumptions C45_refuted.

(** C62: effect of the coverage message *)
Theorem C62_area_message : forall s msg i m, amsg_ok m -> At msg i (amsg_bits m) ->
  exists s', decode_area s msg i = Some (s', (i + length (amsg_bits m))%nat) /\ area_effect m s s'.
Proof. exact area_message. Qed.
Print Assumptions C62_area_message.
Definition ex_area : amsg := AM 3725 1 0 7 1 0 100 [(3, Rect (-351) 1390 40 55); (4, Circ (-1234) 13050 25); (3, Rect 360 1400 30 31)].
Example C62_ex : exists s', decode_area (mst_new 2300 0) (repeat true 5 ++ amsg_bits ex_area) 5 = Some (s', 199%nat) /\
  m_tow0 s' = 3600 /\ m_pnt s' = [(1, [(3, Rect 360 1400 30 31); (4, Circ (-1234) 13050 25)])].
Proof. eexists. split; [vm_compute; reflexivity|]. split; reflexivity. Qed.

(** C63: effect of the correction message *)
Theorem C63_corr_message : forall s msg i m, (70 <= length (m_lc s))%nat -> cmsg_ok m -> cmsg_sats m ->
  At msg i (cmsg_bits m) ->
  exists s', decode_corr2 s msg i = Some (s', (i + length (cmsg_bits m))%nat) /\
             corr_effect m (Z.to_nat (get_inet (c_reg m) (c_area m))) s s'.
Proof. exact corr_message. Qed.
Print Assumptions C63_corr_message.
(** the delays computed from it *)
Theorem C63_delays : forall s msg i m dlat dlon, history s -> cmsg_ok m -> cmsg_sats m -> At msg i (cmsg_bits m) ->
  exists s' j, decode_corr2 s msg i = Some (s', j) /\
    get_stec s' (Z.to_nat (get_inet (c_reg m) (c_area m))) dlat dlon = Some (map (fun ge => tec (snd ge) dlat dlon) (c_all m)).
Proof. exact corr_stec. Qed.
Print Assumptions C63_delays.
Definition ex_corr : cmsg := CM 30 0 0 5 2 3 3 [SE 7 9 (-800) 100 (-200) 30 (-128) 127] [SE 24 1 1 2 3 4 5 6]
  [] [SE 63 0 (-8192) 2047 (-2048) 511 0 0] [SE 2 63 8191 0 0 (-512) 1 (-1)].
Example C63_ex_ok : cmsg_ok ex_corr /\ cmsg_sats ex_corr.
Proof.
  unfold cmsg_ok, cmsg_sats. split.
  - do 7 (split; [vm_compute; split; congruence|]). intros g Hg. cbn in Hg.
    repeat destruct Hg as [<-|Hg]; try contradiction; (split; [cbn; lia|]);
    repeat constructor; try (vm_compute; congruence); cbn in *; lia.
  - split.
    + intros ge Hg. cbn in Hg. repeat destruct Hg as [<-|Hg]; try contradiction; cbn; lia.
    + cbn. repeat constructor; cbn; intuition congruence.
Qed.
Example C63_ex : exists s' lc, decode_corr2 (mst_new 2300 3600) (cmsg_bits ex_corr) 0 = Some (s', 365%nat) /\
  nth_error (m_lc s') 11 = Some lc /\ l_nsat lc = 4 /\ map sat2prn (l_sat lc) = [(GPS, 7); (GLO, 24); (BDS, 63); (QZS, 194)] /\
  zget 7 (l_ci lc) = Some [-800; 100; -200; 30; -128; 127].
Proof. eexists. eexists. split; [vm_compute; reflexivity|]. split; [reflexivity|]. repeat split. Qed.
(** a constellation's satellite number outside its range is stored under another satellite *)
Theorem C63_range_refuted : exists m s' j lc, cmsg_ok m /\ decode_corr2 (mst_new 2300 3600) (cmsg_bits m) 0 = Some (s', j) /\
  c_all m = [(GPS, SE 40 0 5 0 0 0 0 0)] /\ nth_error (m_lc s') 1 = Some lc /\ map sat2prn (l_sat lc) = [(GAL, 8)].
Proof.
  exists (CM 0 0 0 0 1 1 0 [SE 40 0 5 0 0 0 0 0] [] [] [] []). eexists. eexists. eexists. split.
  { unfold cmsg_ok. do 7 (split; [vm_compute; split; congruence|]). intros g Hg. cbn in Hg.
    repeat destruct Hg as [<-|Hg]; try contradiction; (split; [cbn; lia|]);
    repeat constructor; try (vm_compute; congruence); cbn in *; lia. }
  split; [vm_compute; reflexivity|]. repeat split.
Qed.
Print Assumptions C63_range_refuted.

(** C64: the area selected for a position *)
Theorem C64_find_partial : forall s lat lon, history s ->
  (forall reg area p, shape_of s reg area = Some p -> exists a b c d, p = Rect a b c d) ->
  let '(s', inet) := find_grid_index s lat lon in
  (inet = -1 /\ get_dpos s' lat lon = Some (0, 0)%R /\
   forall reg area a b c d, shape_of s reg area = Some (Rect a b c d) -> ~ in_rect a b c d lat lon) \/
  (exists reg area a b c d, shape_of s reg area = Some (Rect a b c d) /\ in_rect a b c d lat lon /\
     inet = get_inet reg area /\ inet >= 0 /\ get_dpos s' lat lon = Some (lat - IZR a / 10, lon - IZR b / 10)%R).
Proof. exact find_ok. Qed.
Print Assumptions C64_find_partial.
Definition ex_area2 : amsg := AM 0 0 0 0 2 0 0 [(1, Rect 350 1390 20 30); (2, Rect 390 1400 20 30)].
Example C64_ex : exists s, history s /\ shape_of s 2 2 = Some (Rect 390 1400 20 30) /\ snd (find_grid_index s 40 142) = 10.
Proof.
  assert (E : exists s, decode_area (mst_new 2300 0) (amsg_bits ex_area2) 0 = Some (s, 149%nat) /\
              m_pnt s = [(2, [(1, Rect 350 1390 20 30); (2, Rect 390 1400 20 30)])]) by (eexists; split; vm_compute; reflexivity).
  destruct E as (s & E & P). exists s. split; [eapply h_area; [apply h_new|exact E]|].
  split; [unfold shape_of; now rewrite P|]. unfold find_grid_index, find_loop. rewrite P. cbn [fold_left fst snd find_area].
  assert (I1 : inside (Rect 350 1390 20 30) 40 142 = false).
  { destruct (inside (Rect 350 1390 20 30) 40 142) eqn:I; [|reflexivity]. apply inside_rect in I as [I _].
    rewrite Rabs_pos_eq in I by lra. lra. }
  assert (I2 : inside (Rect 390 1400 20 30) 40 142 = true)
    by (apply inside_rect; split; rewrite Rabs_pos_eq by lra; lra).
  rewrite I1, I2. reflexivity.
Qed.
(** circles: a position over six thousand kilometres from the centre is inside a circle of range 10 *)
Theorem C64_circle_refuted : exists s lat lon, history s /\ shape_of s 1 1 = Some (Circ 0 9000 1) /\
  (sqrt (((lat - 0) * D2R * RE) ^ 2 + ((lon - 90) * D2R * RE * cos (0 * D2R)) ^ 2) > 6000000)%R /\
  snd (find_grid_index s lat lon) = get_inet 1 1.
Proof.
  assert (E : exists s, decode_area (mst_new 2300 0) (amsg_bits (AM 0 0 0 0 1 0 0 [(1, Circ 0 9000 1)])) 0 = Some (s, 104%nat) /\
              m_pnt s = [(1, [(1, Circ 0 9000 1)])]) by (eexists; split; vm_compute; reflexivity).
  destruct E as (s & E & P). exists s, 0%R, 30%R. split; [eapply h_area; [apply h_new|exact E]|].
  split; [unfold shape_of; now rewrite P|]. split.
  - rewrite Rmult_0_l, cos_0. unfold D2R, RE.
    replace (((0 - 0) * (PI / 180) * 6378137) ^ 2 + ((30 - 90) * (PI / 180) * 6378137 * 1) ^ 2)%R
      with (Rsqr (PI / 3 * 6378137)) by (unfold Rsqr; field).
    pose proof PI2_3_2 as HP. unfold PI2 in HP.
    rewrite sqrt_Rsqr by lra. lra.
  - unfold find_grid_index, find_loop. rewrite P. cbn [fold_left fst snd find_area].
    assert (I : inside (Circ 0 9000 1) 0 30 = true).
    { unfold inside, D2R. replace (IZR 9000 / 100 * (PI / 180))%R with (PI / 2)%R by field. rewrite cos_PI2.
      replace (_ * _ + _ * _)%R with 0%R by field. rewrite sqrt_0. destruct (Rle_dec 0 (1 * 10)); [reflexivity|lra]. }
    rewrite I. reflexivity.
Qed.
Print Assumptions C64_circle_refuted.
