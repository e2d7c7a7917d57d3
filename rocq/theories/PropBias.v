(** Theorems about RTCM code and phase bias messages. *)
From Verif Require Import SatModel SatSpec TimeModel CssrState RtcmFrame RtcmFrameSpec RtcmSsr RtcmFrameProofs RtcmSsrSpec RtcmSsrProofs SigModel BiasModel BiasSpec BiasProofs Base BaseFacts.
From Coq Require Import ZifyBool ZifyNat String.
From Verif Require Import Base.
Open Scope Z_scope.
Notation length := List.length.

(* ---------- C85 ---------- *)
(** decoding: every code bias message, RTCM or IGS, any constellation, up to 63
    satellites with any named signals *)
Theorem C85_decode_partial : forall Q igs s w (st : @bst Q) msg h es,
  start s (fun mt => carries mt s SCB) 5 igs w -> head_ok igs s h -> (length es < 64)%nat ->
  Forall (cs_ok igs s) es -> NoDup (map (fun e => prn2sat s (c_prn e)) es) -> At msg 24 (w ++ cbody igs s h es) ->
  exists st', decode_bias st msg = Some (st', (24 + length (w ++ cbody igs s h es))%nat) /\
    ceffect s (msg_time igs (r_week (b_base st)) (r_time (b_base st)) s (g_tow h)) h es st st'.
Proof. exact @dec_code. Qed.
Print Assumptions C85_decode_partial.

(** encoding: GPS 1059, and 68, 69, 70; the satellites of sat_n are as many as those with biases *)
Theorem C85_encode_partial : forall e s es msg,
  cnums (eb_mt e) s -> length (listed s (eb_sat_n e)) = length es -> (length es < 64)%nat ->
  head_ok false s (ehead e SCB) -> Forall (cs_ok false s) es -> cgiven s (eb_cb e) es ->
  (24 + length (bitsof 12 (eb_mt e) ++ cbody false s (ehead e SCB) es) <= length msg)%nat ->
  encode_bias e msg = Some (splice msg 24 (bitsof 12 (eb_mt e) ++ cbody false s (ehead e SCB) es),
                            (24 + length (bitsof 12 (eb_mt e) ++ cbody false s (ehead e SCB) es))%nat).
Proof. exact enc_code. Qed.
Print Assumptions C85_encode_partial.

Theorem C85_round_trip_partial : forall Q e s es msg (st : @bst Q),
  cnums (eb_mt e) s -> length (listed s (eb_sat_n e)) = length es -> (length es < 64)%nat ->
  head_ok false s (ehead e SCB) -> Forall (cs_ok false s) es -> NoDup (map (fun e => prn2sat s (c_prn e)) es) -> cgiven s (eb_cb e) es ->
  (24 + length (bitsof 12 (eb_mt e) ++ cbody false s (ehead e SCB) es) <= length msg)%nat ->
  exists m n st', encode_bias e msg = Some (m, n) /\ length m = length msg /\ decode_bias st m = Some (st', n) /\
    ceffect s (msg_time false (r_week (b_base st)) (r_time (b_base st)) s (eb_tow e)) (ehead e SCB) es st st'.
Proof.
  intros Q e s es msg st Hm Hl Hn Hh Hok Hd Hg Hlen.
  pose proof (enc_code e s es msg Hm Hl Hn Hh Hok Hg Hlen) as E.
  destruct (dec_code false s (bitsof 12 (eb_mt e)) st (splice msg 24 (bitsof 12 (eb_mt e) ++ cbody false s (ehead e SCB) es)) (ehead e SCB) es)
    as (st' & D1 & D2); auto.
  - apply Rtcm. destruct Hm as [[-> ->]|[[-> ->]|[[-> ->]|[-> ->]]]];
      [left; exists 1057, 2; repeat split|right; right; exists 2, 0|right; right; exists 2, 1|right; right; exists 2, 2];
      (split; [reflexivity|split; [reflexivity|tauto]]).
  - now apply splice_at.
  - eexists _, _, st'. split; [exact E|]. split; [now apply splice_length|]. split; [exact D1|exact D2].
Qed.
Print Assumptions C85_round_trip_partial.

Definition c85_base : @rst (Z * Z) :=
  RST 2200 gtime0 0 0 0 0 false (fun _ => 0) (fun _ => 0) (fun _ => gtime0) (fun _ _ => gtime0) [] 0 [] [99] [(99, 1)] [] [] [] [] [] [] [] None.
Definition c85_st : @bst (Z * Z) := BST c85_base [5] [(5, [("C1C"%string, Some 3)])] [] [] [] [] [] [] false 0.
Definition sg (s : gnss) (x : string) : rsig := match mk2 s x with Some r => r | None => RS NONE TNONE 0 end.
(** two GPS satellites, one with two signals, next to a Galileo satellite *)
Definition c85_enc (mt : Z) : ebst :=
  EB mt 345600 (fun _ => 3) true 5 777 2 false 0 [7; 12]
    [(7, [(sg GPS "C1W", Some (-812)); (sg GPS "C2W", Some 77)]); (33, [(sg GAL "C1C", Some 4)]); (12, [(sg GPS "C5Q", Some 8191)])] [] [] [].
Example C85_case :
  (do (m, n) <- encode_bias (c85_enc 1059) (repeat false 200); do (s, n') <- decode_bias c85_st m;
   Some (n, n', b_cb s, b_satb s, r_pid (b_base s))) =
  Some (170%nat, 170%nat, [(7, [("C1W", Some (-812)); ("C2W", Some 77)]); (12, [("C5Q", Some 8191)])], [7; 12], 777)%string /\
  cgiven GPS (eb_cb (c85_enc 1059)) [CS 7 [(2, Some (-812)); (11, Some 77)]; CS 12 [(15, Some 8191)]].
Proof.
  split; [vm_compute; reflexivity|].
  repeat (constructor; try (split; [reflexivity|]); try discriminate; try (intros [K _]; discriminate K)).
Qed.

Definition hd0 : hdr := HDR 345600 3 true 0 5 777 2.
Definition onto (w : bits) : bits := repeat false 24 ++ w.
(** QZSS: the biases of L1 C/A and of L1C(P) arrive under one name, so one is lost; and L1 C/A is sent with the number of
    L1C(P) *)
Theorem C85_qzss_refuted :
  (exists a b st', a <> b /\
     decode_bias c85_st (onto (bitsof 12 70 ++ cbody false QZS hd0 [CS 194 [(0, Some a); (2, Some b)]])) = Some (st', 138%nat) /\
     sname QZS 0 = Some "1C"%string /\ sname QZS 2 = Some "1L"%string /\
     b_cb st' = [(prn2sat QZS 194, [("C1C"%string, Some b)])]) /\
  (exists r, mk2 QZS "C1C" = Some r /\ rsig2code r = Some 2) /\ (exists r, mk2 QZS "C1L" = Some r /\ rsig2code r = None).
Proof.
  split; [exists 100, (-50); eexists; split; [lia|]; split; [vm_compute; reflexivity|]; split; [reflexivity|]; split; [reflexivity|vm_compute; reflexivity]|].
  split; eexists; split; vm_compute; reflexivity.
Qed.
Print Assumptions C85_qzss_refuted.
(** the number of satellites in the header is that of sat_n, not of the biases that follow: with biases of two satellites
    and orbits of one, the receiver gets one *)
Theorem C85_count_refuted : exists e m n st' n',
  map fst (eb_cb e) = [7; 12] /\ eb_sat_n e = [7] /\ encode_bias e (repeat false 200) = Some (m, n) /\ decode_bias c85_st m = Some (st', n') /\
  map fst (b_cb st') = [7] /\ (n' < n)%nat.
Proof.
  exists (EB 1059 345600 (fun _ => 3) true 5 777 2 false 0 [7] [(7, [(sg GPS "C1W", Some (-812))]); (12, [(sg GPS "C5Q", Some 8191)])] [] [] []).
  do 4 eexists. split; [reflexivity|]. split; [reflexivity|]. split; [vm_compute; reflexivity|]. split; [vm_compute; reflexivity|].
  split; [vm_compute; reflexivity|apply Nat.ltb_lt; vm_compute; reflexivity].
Qed.
Print Assumptions C85_count_refuted.
(** a code bias "not available" can be received but not sent *)
Theorem C85_nan_refuted : exists st' n e,
  decode_bias c85_st (onto (bitsof 12 1059 ++ cbody false GPS hd0 [CS 7 [(2, None)]])) = Some (st', n) /\ b_cb st' = [(7, [("C1W"%string, None)])] /\
  eb_cb e = [(7, [(sg GPS "C1W", None)])] /\ eb_sat_n e = [7] /\ encode_bias e (repeat false 200) = None.
Proof.
  do 2 eexists. exists (EB 1059 345600 (fun _ => 3) true 5 777 2 false 0 [7] [(7, [(sg GPS "C1W", None)])] [] [] []).
  split; [vm_compute; reflexivity|]. split; [vm_compute; reflexivity|]. split; [reflexivity|]. split; [reflexivity|vm_compute; reflexivity].
Qed.
Print Assumptions C85_nan_refuted.
(** signal numbers without a name all end under one key; a satellite announcing more signals than the table has ends the
    message without an error, the satellites after it being lost *)
Theorem C85_unknown_refuted :
  (exists st' n, decode_bias c85_st (onto (bitsof 12 1059 ++ cbody false GPS hd0 [CS 7 [(3, Some 1); (4, Some 2)]])) = Some (st', n) /\
     b_cb st' = [(7, [("???"%string, Some 2)])]) /\
  (exists st' n, let w := bitsof 12 4076 ++ bitsof 3 1 ++ bitsof 8 125 ++
       cbody true SBS hd0 [CS 120 [(0, Some 1); (1, Some 2); (2, Some 3); (3, Some 4); (4, Some 5)]; CS 121 [(0, Some 6)]] in
     decode_bias c85_st (onto w) = Some (st', n) /\ b_cb st' = [(prn2sat SBS 120, [])] /\ r_cstat (b_base st') = [SCB] /\ (n < 24 + length w)%nat).
Proof.
  split; [do 2 eexists; split; vm_compute; reflexivity|]. do 2 eexists. cbv zeta. split; [vm_compute; reflexivity|]. split; [vm_compute; reflexivity|].
  split; [vm_compute; reflexivity|apply Nat.ltb_lt; vm_compute; reflexivity].
Qed.
Print Assumptions C85_unknown_refuted.

(* ---------- C86 ---------- *)
(** decoding: phase bias messages 1265-1270, 85-89 and IGS subtypes; the decoder's dictionaries stay aligned *)
Theorem C86_decode_partial : forall Q f igs s w (st : @bst Q) msg h es,
  start s (fun mt => pnumber f s = Some mt) 6 igs w -> (igs = true -> is_old f = true) ->
  head_ok igs s h -> form_ok f -> (length es < 64)%nat -> aligned st ->
  Forall (ps_ok igs s) es -> NoDup (map (fun e => prn2sat s (p_prn e)) es) -> At msg 24 (w ++ pbody f igs s h es) ->
  exists st', decode_bias st msg = Some (st', (24 + length (w ++ pbody f igs s h es))%nat) /\
    peffect f s (msg_time igs (r_week (b_base st)) (r_time (b_base st)) s (g_tow h)) h es st st' /\ aligned st'.
Proof. exact @dec_phase. Qed.
Print Assumptions C86_decode_partial.

(** encoding: 85, 87, 88, 89, when the yaw flag agrees with the yaw angles known *)
Theorem C86_encode_partial : forall e s es msg,
  pnums (eb_mt e) s -> (length es < 64)%nat -> head_ok false s (ehead e SPB) -> 0 <= eb_iexpb e < 16 ->
  Forall (ps_ok false s) es -> pgiven s (eb_iyaw e) (eb_yaw e) (eb_dyaw e) (eb_pb e) es ->
  (24 + length (bitsof 12 (eb_mt e) ++ pbody (PNew (eb_iyaw e) (eb_iexpb e)) false s (ehead e SPB) es) <= length msg)%nat ->
  encode_bias e msg = Some (splice msg 24 (bitsof 12 (eb_mt e) ++ pbody (PNew (eb_iyaw e) (eb_iexpb e)) false s (ehead e SPB) es),
                            (24 + length (bitsof 12 (eb_mt e) ++ pbody (PNew (eb_iyaw e) (eb_iexpb e)) false s (ehead e SPB) es))%nat).
Proof. exact enc_phase. Qed.
Print Assumptions C86_encode_partial.

Theorem C86_round_trip_partial : forall Q e s es msg (st : @bst Q),
  pnums (eb_mt e) s -> (length es < 64)%nat -> head_ok false s (ehead e SPB) -> 0 <= eb_iexpb e < 16 ->
  Forall (ps_ok false s) es -> NoDup (map (fun e => prn2sat s (p_prn e)) es) -> pgiven s (eb_iyaw e) (eb_yaw e) (eb_dyaw e) (eb_pb e) es -> aligned st ->
  (24 + length (bitsof 12 (eb_mt e) ++ pbody (PNew (eb_iyaw e) (eb_iexpb e)) false s (ehead e SPB) es) <= length msg)%nat ->
  exists m n st', encode_bias e msg = Some (m, n) /\ length m = length msg /\ decode_bias st m = Some (st', n) /\
    peffect (PNew (eb_iyaw e) (eb_iexpb e)) s (msg_time false (r_week (b_base st)) (r_time (b_base st)) s (eb_tow e)) (ehead e SPB) es st st'.
Proof.
  intros Q e s es msg st Hm Hn Hh Hx Hok Hd Hg Ha Hlen.
  pose proof (enc_phase e s es msg Hm Hn Hh Hx Hok Hg Hlen) as E.
  destruct (dec_phase (PNew (eb_iyaw e) (eb_iexpb e)) false s (bitsof 12 (eb_mt e)) st
     (splice msg 24 (bitsof 12 (eb_mt e) ++ pbody (PNew (eb_iyaw e) (eb_iexpb e)) false s (ehead e SPB) es)) (ehead e SPB) es)
    as (st' & D1 & D2 & _); auto.
  - apply Rtcm. destruct Hm as [[-> ->]|[[-> ->]|[[-> ->]|[-> ->]]]]; reflexivity.
  - now apply splice_at.
  - eexists _, _, st'. split; [exact E|]. split; [now apply splice_length|]. split; [exact D1|exact D2].
Qed.
Print Assumptions C86_round_trip_partial.

(** Galileo and GPS phase biases with yaw angles; a bias that is not available; discontinuity counters and integer flags *)
Definition c86_enc (iyaw : bool) (yaw : dict Z Z) (dyaw : dict Z (option Z)) : ebst :=
  EB 87 345600 (fun _ => 3) true 5 777 2 iyaw 9 [33] []
    [(33, [PE (sg GAL "L1C") (Some (-4000)) 1 7; PE (sg GAL "L5Q") None 0 15]); (7, [PE (sg GPS "L1W") (Some 5) 1 1]); (40, [PE (sg GAL "L7Q") (Some 12) 1 0])] yaw dyaw.
Example C86_case :
  (do (m, n) <- encode_bias (c86_enc true [(33, 100); (40, 511)] [(33, Some (-3)); (40, Some 127)]) (repeat false 300); do (s, n') <- decode_bias c85_st m;
   Some (n, n', b_pb s, b_si s, b_di s, b_yaw s, b_dyaw s, b_iexpb s)) =
  Some (242%nat, 242%nat, [(33, [("L1C", Some (-4000)); ("L5Q", None)]); (40, [("L7Q", Some 12)])], [(33, [("L1C", true); ("L5Q", false)]); (40, [("L7Q", true)])],
        [(33, [("L1C", 7); ("L5Q", 15)]); (40, [("L7Q", 0)])], [(33, 100); (40, 511)], [(33, Some (-3)); (40, Some 127)], 9)%string /\
  pgiven GAL true [(33, 100); (40, 511)] [(33, Some (-3)); (40, Some 127)] (eb_pb (c86_enc true [(33, 100); (40, 511)] [(33, Some (-3)); (40, Some 127)]))
    [PS (33 - 32) 100 (Some (-3)) [PG 2 true 0 7 (Some (-4000)); PG 6 false 0 15 None]; PS (40 - 32) 511 (Some 127) [PG 9 true 0 0 (Some 12)]] /\ aligned c85_st.
Proof.
  split; [vm_compute; reflexivity|]. split; [|intros sat; cbn; tauto].
  repeat (constructor; try (split; [reflexivity|]); try discriminate; try (intros [K _]; discriminate K)).
Qed.
(** yaw angles are written whenever they are known, also with the yaw flag off: the receiver then reads the yaw angle as the
    first signal and finds other biases *)
Theorem C86_yaw_refuted : exists e m n st' n',
  eb_iyaw e = false /\ encode_bias e (repeat false 300) = Some (m, n) /\ decode_bias c85_st m = Some (st', n') /\
  map fst (eb_pb e) = [33; 7; 40] /\ (exists d, zget 33 (b_pb st') = Some d /\ sget "L1C" d <> Some (Some (-4000))) /\ map fst (b_pb st') <> [33; 40] /\ n' <> n.
Proof.
  exists (c86_enc false [(33, 100); (40, 511)] [(33, Some (-3)); (40, Some 127)]). do 4 eexists.
  split; [reflexivity|]. split; [vm_compute; reflexivity|]. split; [vm_compute; reflexivity|]. split; [reflexivity|].
  split; [eexists; split; [vm_compute; reflexivity|vm_compute; discriminate]|]. split; vm_compute; discriminate.
Qed.
Print Assumptions C86_yaw_refuted.
(** a yaw rate that is not available can be received, not sent; and the numbers 1265-1270 can be received, while asking the
    encoder for one gives a message of twelve bits and no error *)
Theorem C86_encoder_refuted :
  encode_bias (c86_enc true [(33, 100); (40, 511)] [(33, None); (40, Some 127)]) (repeat false 300) = None /\
  (forall e msg mt, 1265 <= mt <= 1270 -> eb_mt e = mt -> (36 <= length msg)%nat -> encode_bias e msg = Some (splice msg 24 (bitsof 12 mt), 36%nat)).
Proof.
  split; [vm_compute; reflexivity|]. intros e msg mt H E L. unfold encode_bias. rewrite E.
  replace (edispatch mt) with KNone by (assert (X : mt = 1265 \/ mt = 1266 \/ mt = 1267 \/ mt = 1268 \/ mt = 1269 \/ mt = 1270) by lia;
    destruct X as [-> | [-> | [-> | [-> | [-> | ->]]]]]; reflexivity).
  rewrite putu_ok by (cbn; lia). reflexivity.
Qed.
Print Assumptions C86_encoder_refuted.
