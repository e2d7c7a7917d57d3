(** Theorems about RTCM state space corrections. *)
From Verif Require Import SatModel SatSpec TimeModel QualModel CssrState RtcmFrame RtcmFrameSpec RtcmSsr RtcmFrameProofs RtcmSsrSpec RtcmSsrProofs Base BaseFacts.
From Verif Require Import RtcmFloat.
From Coq Require Import Reals Lra ZifyBool ZifyNat.
From Verif Require Import Base.
Open Scope Z_scope.
Notation length := List.length.

(* ---------- C34 ---------- *)
(** decoding: every orbit, clock, combined, accuracy and high-rate clock message (number 63 excepted), any
    constellation, up to 63 satellites, any values including "not available" *)
Theorem C34_decode_partial : forall Q (q_of : Z -> Z -> Q) mt s c h es st msg,
  carries mt s c -> mt <> 63 -> c <> SCB ->
  head_ok false s h -> (length es < 64)%nat -> Forall (sat_ok false s c) es -> NoDup (sats_of s es) -> ready c (length es) st ->
  At msg 24 (message mt s c h es) ->
  exists st', decode q_of st msg = Some (st', (24 + length (message mt s c h es))%nat) /\
    effect q_of c s (msg_time false (r_week st) (r_time st) s (g_tow h)) h es st st'.
Proof. exact @dec_message. Qed.
Print Assumptions C34_decode_partial.
Theorem C34_decode_igs : forall Q (q_of : Z -> Z -> Q) ver sub s c h es st msg,
  igs_sub s c = Some sub -> 0 <= ver < 8 ->
  head_ok true s h -> (length es < 64)%nat -> Forall (sat_ok true s c) es -> NoDup (sats_of s es) -> ready c (length es) st ->
  At msg 24 (igs_message ver sub s c h es) ->
  exists st', decode q_of st msg = Some (st', (24 + length (igs_message ver sub s c h es))%nat) /\
    effect q_of c s (msg_time true (r_week st) (r_time st) s (g_tow h)) h es st st'.
Proof. exact @dec_igs. Qed.
Print Assumptions C34_decode_igs.

(** encoding: orbit, clock and accuracy messages of GPS, Galileo, BeiDou and QZSS *)
Theorem C34_encode_partial : forall Q (q_to : Q -> Z * Z) e s c es msg,
  encodes (e_mt e) s c ->
  listed s (e_sat_n e) = sats_of s es -> (c = SURA -> listed s (map fst (e_ura e)) = sats_of s es) ->
  (length es < 64)%nat -> head_ok false s (head_of e c) -> Forall (sat_ok false s c) es -> Forall (has q_to c e s) es ->
  (24 + length (message (e_mt e) s c (head_of e c) es) <= length msg)%nat ->
  encode q_to e msg = Some (splice msg 24 (message (e_mt e) s c (head_of e c) es),
                            (24 + length (message (e_mt e) s c (head_of e c) es))%nat).
Proof. exact @enc_message. Qed.
Print Assumptions C34_encode_partial.

(** what is sent is what is received *)
Theorem C34_round_trip_partial : forall Q (q_of : Z -> Z -> Q) (q_to : Q -> Z * Z) e s c es msg st,
  encodes (e_mt e) s c -> e_mt e <> 63 ->
  listed s (e_sat_n e) = sats_of s es -> (c = SURA -> listed s (map fst (e_ura e)) = sats_of s es) ->
  (length es < 64)%nat -> head_ok false s (head_of e c) -> Forall (sat_ok false s c) es -> Forall (has q_to c e s) es ->
  NoDup (sats_of s es) ->
  (24 + length (message (e_mt e) s c (head_of e c) es) <= length msg)%nat ->
  exists m n st', encode q_to e msg = Some (m, n) /\ length m = length msg /\ decode q_of st m = Some (st', n) /\
    effect q_of c s (msg_time false (r_week st) (r_time st) s (e_tow e)) (head_of e c) es st st'.
Proof.
  intros Q q_of q_to e s c es msg st Hc H63 Hl Hu Hn Hh Hok Hhas Hd Hlen.
  pose proof (enc_message q_to e s c es msg Hc Hl Hu Hn Hh Hok Hhas Hlen) as E.
  destruct (dec_message q_of (e_mt e) s c (head_of e c) es st (splice msg 24 (message (e_mt e) s c (head_of e c) es)))
    as (st' & D1 & D2); auto.
  - apply Hc.
  - destruct Hc as (_ & _ & _ & K). intros ->. intuition discriminate.
  - destruct Hc as (_ & _ & _ & K). intros ->. intuition discriminate.
  - now apply splice_at.
  - eexists _, _, st'. split; [exact E|]. split; [now apply splice_length|]. split; [exact D1|exact D2].
Qed.
Print Assumptions C34_round_trip_partial.

(** two Galileo satellites, one clock rate not available, next to a GPS satellite *)
Definition c34_enc : @est (Z * Z) :=
  EST 62 345600 (fun _ => 3) true 1 5 777 2 [7; 33; 40] [(33, 800); (40, 17); (7, 3)]
    [(33, (Some 1000, Some (-2000), None)); (40, (Some (-1), Some 0, Some 524287)); (7, (None, None, None))] None
    [] None [] [].
Definition c34_st : @rst (Z * Z) :=
  RST 2200 gtime0 0 0 0 0 false (fun _ => 0) (fun _ => 0) (fun _ => gtime0) (fun _ _ => gtime0) [] 0 [] [99] [(99, 1)] [] [] [] [] [] [] [] None.
Example C34_case :
  (do (m, n) <- encode (fun q => q) c34_enc (repeat false 450);
   do (s, n') <- decode pair c34_st m;
   Some (n, n', r_sat_n s, r_iode s, r_dorb s, r_pid s, r_udi s SORB)) =
  Some (366%nat, 366%nat, [33; 40], [(33, 800); (40, 17)],
        [(33, (Some 1000, Some (-2000), None)); (40, (Some (-1), Some 0, Some 524287))], 777, 3) /\
  encodes 62 GAL SORB /\ listed GAL (e_sat_n c34_enc) = [33; 40].
Proof.
  split; [vm_compute; reflexivity|]. split; [|vm_compute; reflexivity].
  split; [right; right; exists 0, 0; repeat split; now left|]. repeat split; auto. left. lia.
Qed.

(** full statement: the round trip for every constellation and every kind of correction.
    (1) Combined and high-rate clock corrections cannot be encoded at all: the encoder methods do not exist.
    (2) The encoder writes GLONASS satellites with 6 bits, the decoder reads 5; and its 17-bit time field
        overflows for almost every time of week.
    (3) 63 comes back as an ephemeris.
    (4) QZSS satellites above 207 do not fit.
    (5) The accuracy message announces the number of satellites with corrections but lists those with an
        accuracy. *)
Theorem C34_combined_refuted : forall Q (q_to : Q -> Z * Z) e msg s c,
  carries (e_mt e) s c -> c = SOC \/ c = SHCLK -> e_mt e < 100 \/ s = GPS -> encode q_to e msg = None.
Proof.
  intros Q q_to e msg s c Hc Hk Hs. unfold encode. destruct (putu msg 24 12 (e_mt e)); [cbn [bind]|reflexivity].
  assert (E : edispatch (e_mt e) = KSsr c).
  { destruct Hc as [H|[H|H]].
    - destruct H as (b0 & o & Hb & Ho & He). rewrite He in *. destruct s; try discriminate Hb; injection Hb as <-;
        destruct Hk as [-> | ->]; injection Ho as <-; try reflexivity; exfalso; destruct Hs; [lia|discriminate|lia|discriminate..].
    - destruct H as (o & Ho & -> & ->). destruct Hk as [-> | ->]; injection Ho as <-; reflexivity.
    - destruct H as (o & k & Ho & -> & [[-> ->]|[[-> ->]|[-> ->]]]); destruct Hk as [-> | ->]; injection Ho as <-; reflexivity. }
  rewrite E. destruct (get_ssr_sys None (e_mt e)); [cbn [bind]|reflexivity]. destruct Hk as [-> | ->]; reflexivity.
Qed.
Print Assumptions C34_combined_refuted.
(** the assigned numbers of the other constellations: a message with nothing in it, and no error *)
Theorem C34_numbers_refuted : forall Q (q_to : Q -> Z * Z) e msg s c,
  ssr_number (e_mt e) s c -> s <> GPS -> (36 <= length msg)%nat -> encode q_to e msg = Some (splice msg 24 (bitsof 12 (e_mt e)), 36%nat).
Proof.
  intros Q q_to e msg s c H Hs Hl. unfold encode.
  assert (E : 0 <= e_mt e < 4096 /\ edispatch (e_mt e) = KNone).
  { destruct H as (b0 & o & Hb & Ho & ->). destruct s; try discriminate Hb; try (now destruct Hs); injection Hb as <-;
      destruct c; try discriminate Ho; injection Ho as <-; split; (lia || reflexivity). }
  destruct E as [E1 E2]. rewrite putu_ok; [cbn [bind]; now rewrite E2|lia|exact E1].
Qed.
Print Assumptions C34_numbers_refuted.
Theorem C34_glonass_refuted :
  (exists e m n s n', @encode (Z * Z) (fun q => q) e (repeat false 450) = Some (m, n) /\
     e_mt e = 42 /\ listed GLO (e_sat_n e) = [prn2sat GLO 1] /\ zget (prn2sat GLO 1) (e_dclk e) = Some (Some 5) /\
     decode pair c34_st m = Some (s, n') /\ n <> n' /\
     zget (prn2sat GLO 1) (r_dclk s) = None) /\
  (forall Q (q_to : Q -> Z * Z) e msg s c, 41 <= e_mt e <= 46 -> carries (e_mt e) s c -> 131072 <= e_tow e -> encode q_to e msg = None).
Proof.
  split.
  - exists (EST 42 1000 (fun _ => 3) false 0 5 777 2 [prn2sat GLO 1] [] [] None [(prn2sat GLO 1, Some 5)] None [] []).
    do 4 eexists. split; [vm_compute; reflexivity|]. repeat (split; [vm_compute; reflexivity|]).
    split; [discriminate|vm_compute; reflexivity].
  - intros Q q_to e msg s c Hm Hc Ht. unfold encode. destruct (putu msg 24 12 (e_mt e)); [cbn [bind]|reflexivity].
    assert (G : get_ssr_sys None (e_mt e) = Some GLO).
    { assert (e_mt e = 41 \/ e_mt e = 42 \/ e_mt e = 43 \/ e_mt e = 44 \/ e_mt e = 45 \/ e_mt e = 46) as D by lia.
      destruct D as [-> | [-> | [-> | [-> | [-> | ->]]]]]; vm_compute; reflexivity. }
    rewrite G. cbn [bind].
    assert (H : forall c m, encode_head e GLO c m 36 = None).
    { intros c' m. unfold encode_head, putu. change (2 ^ Z.of_nat 17) with 131072.
      replace (e_tow e <? 131072) with false by lia. now rewrite andb_false_r. }
    assert (D : exists c', edispatch (e_mt e) = KSsr c').
    { assert (e_mt e = 41 \/ e_mt e = 42 \/ e_mt e = 43 \/ e_mt e = 44 \/ e_mt e = 45 \/ e_mt e = 46) as D by lia.
      destruct D as [-> | [-> | [-> | [-> | [-> | ->]]]]]; eexists; vm_compute; reflexivity. }
    destruct D as [c' ->]. destruct c'; try reflexivity; [unfold encode_orb|unfold encode_clk|unfold encode_ura]; rewrite H; reflexivity.
Qed.
Print Assumptions C34_glonass_refuted.
Theorem C34_63_refuted : encodes 63 BDS SORB /\ dispatch 63 = KEph BDS.
Proof.
  split; [|reflexivity]. split; [right; right; exists 0, 1; repeat split; auto|]. repeat split; auto. left. lia.
Qed.
Print Assumptions C34_63_refuted.
Theorem C34_qzss_refuted : forall msg i, owns QZS 208 /\ encode_sat msg i (prn2sat QZS 208) = None.
Proof.
  intros msg i. split; [cbn; lia|]. unfold encode_sat. change (sat2prn (prn2sat QZS 208)) with (QZS, 208). cbv iota beta zeta.
  unfold putu. change (208 - 192 <? 2 ^ Z.of_nat 4) with false. now rewrite andb_false_r.
Qed.
Print Assumptions C34_qzss_refuted.
(** accuracies of two satellites, corrections of one: the second satellite's accuracy is lost *)
Theorem C34_ura_refuted : exists e m n s n', @encode (Z * Z) (fun q => q) e (repeat false 450) = Some (m, n) /\
  e_mt e = 1061 /\ zget 3 (e_ura e) = Some (2, 2) /\ decode pair c34_st m = Some (s, n') /\ n <> n' /\ zget 3 (r_ura s) = None.
Proof.
  exists (EST 1061 1000 (fun _ => 3) false 0 5 777 2 [2] [] [] None [] None [] [(2, (1, 1)); (3, (2, 2))]).
  do 4 eexists. split; [vm_compute; reflexivity|]. repeat (split; [vm_compute; reflexivity|]).
  split; [discriminate|vm_compute; reflexivity].
Qed.
Print Assumptions C34_ura_refuted.
(** a high-rate clock message before any clock message raises *)
Theorem C34_hclk_first_refuted : exists h e msg, head_ok false GPS h /\ sat_ok false GPS SHCLK e /\
  At msg 24 (message 1062 GPS SHCLK h [e]) /\ carries 1062 GPS SHCLK /\ decode pair c34_st msg = None.
Proof.
  exists (HDR 1000 3 false 0 5 777 2), (ENT 5 0 (None, None, None) (None, None, None) (None, None, None) (Some 7) (0, 0)).
  exists (repeat false 24 ++ message 1062 GPS SHCLK (HDR 1000 3 false 0 5 777 2)
            [ENT 5 0 (None, None, None) (None, None, None) (None, None, None) (Some 7) (0, 0)] ++ []).
  split; [repeat split; cbn; lia|]. split; [repeat split; cbn; lia|].
  split; [exists (repeat false 24), []; split; reflexivity|].
  split; [left; now exists 1057, 5|]. vm_compute. reflexivity.
Qed.
Print Assumptions C34_hclk_first_refuted.

(** in double precision: whatever the decoder computes from an integer field, the encoder sends as the same integer.
    The widest field has 27 bits; the resolutions are between 1e-6 and 1. *)
Theorem C34_quantise : forall (u : Z) (scl : R), Z.abs u <= 2 ^ 50 -> (Raux.bpow Zaux.radix2 (-900) <= scl)%R ->
  fival (fsval u scl) scl = u.
Proof. exact quantise. Qed.
Print Assumptions C34_quantise.
Example C34_quantise_case : fival (fsval (-67108863) (4 / 1000000)) (4 / 1000000) = -67108863.
Proof.
  apply quantise; [lia|]. apply Rle_trans with (Raux.bpow Zaux.radix2 (-18)); [apply Raux.bpow_le; lia|].
  change (Raux.bpow Zaux.radix2 (-18)) with (/ IZR (2 ^ 18))%R. change (2 ^ 18)%Z with 262144%Z. lra.
Qed.
(** code biases are truncated instead: 29 centimetres come back as 28 *)
Theorem C34_cbias_refuted : exists u, 0 < u < 2 ^ 13 /\ cb_send u <> u.
Proof. exists 29. vm_compute. repeat split; discriminate. Qed.
Print Assumptions C34_cbias_refuted.
