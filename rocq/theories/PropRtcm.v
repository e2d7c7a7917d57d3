(** Theorems about RTCM 3 frames and message numbers. *)
From Verif Require Import SatModel RtcmFrame RtcmFrameSpec RtcmFrameProofs Base.
Open Scope Z_scope.
Notation length := List.length.

(* ---------- C33 ---------- *)
(** completing any body of 6 to 1023 bytes gives a frame that passes the decoder's checks; the body
    and everything outside the frame are untouched *)
Theorem C33_frame_partial : forall msg k len maxlen, (6 <= len < Z.to_nat 1024)%nat ->
  (8 * (k + len + 6) <= length msg)%nat -> (maxlen = 0 \/ k + len < maxlen)%nat ->
  exists m cs, frame msg k len maxlen = Some (m, Some cs) /\
    length m = length msg /\
    sync m k = Some true /\
    (forall mon, checksum mon m k maxlen = Some (true, Some len)) /\
    (forall j, (j < 8 * k \/ 8 * (k + 3) <= j < 8 * (k + 3 + len) \/ 8 * (k + len + 6) <= j)%nat ->
       nth j m false = nth j msg false).
Proof. exact frame_ok. Qed.
Print Assumptions C33_frame_partial.
Example C33_frame_case :
  let body := bitsof 48 0x010203040506 in
  frame (bitsof 24 0 ++ body ++ bitsof 24 0 ++ bitsof 16 0xabcd) 0 6 0 =
    Some (bitsof 24 0xd30006 ++ body ++ bitsof 24 0x32a106 ++ bitsof 16 0xabcd, Some 0x32a106).
Proof. vm_compute. reflexivity. Qed.
(** full statement: the same for every body length.  Bodies below six bytes get no checksum and are
    never accepted. *)
Theorem C33_short_refuted : exists msg k len maxlen, (8 * (k + len + 6) <= length msg)%nat /\
  exists m, frame msg k len maxlen = Some (m, None) /\
    (forall mon mx, checksum mon m k mx = Some (false, None)).
Proof.
  exists (repeat false 88), 0%nat, 5%nat, 0%nat. split; [vm_compute; lia|]. apply frame_short; cbn; lia.
Qed.
Print Assumptions C33_short_refuted.

(** what an accepted complete frame is: its length field, and divisibility by the CRC-24Q generator
    as polynomials over GF(2) *)
Theorem C33_divisible : forall mon msg k maxlen len, (8 * (k + len + 6) <= length msg)%nat ->
  (checksum mon msg k maxlen = Some (true, Some len) <->
   (6 <= len)%nat /\ (maxlen = 0 \/ k + len < maxlen)%nat /\
   bval (slice msg (8 * k + 14) 10) = Z.of_nat len /\
   exists q, bval (slice msg (8 * k) (8 * (len + 6))) = gmul q gen24q).
Proof. exact checksum_divisible. Qed.
Print Assumptions C33_divisible.

(** damage to an accepted frame outside its length field is detected: any burst of up to 24 bits, any
    odd number of bits, any two bits *)
Theorem C33_detect_partial : forall mon msg msg' k maxlen len,
  (8 * (k + len + 6) <= length msg)%nat -> length msg' = length msg ->
  checksum mon msg k maxlen = Some (true, Some len) ->
  slice msg' (8 * k + 14) 10 = slice msg (8 * k + 14) 10 ->
  must_detect (diff (slice msg (8 * k) (8 * (len + 6))) (slice msg' (8 * k) (8 * (len + 6)))) ->
  checksum mon msg' k maxlen = Some (false, Some len).
Proof. exact damaged. Qed.
Print Assumptions C33_detect_partial.
Example C33_detect_case :
  let good := bitsof 24 0xd30006 ++ bitsof 48 0x010203040506 ++ bitsof 24 0x32a106 in
  let bad := bitsof 24 0xd30006 ++ bitsof 48 0x010213040506 ++ bitsof 24 0x32a106 in
  checksum true good 0 0 = Some (true, Some 6%nat) /\ checksum true bad 0 0 = Some (false, Some 6%nat) /\
  must_detect (diff (slice good 0 96) (slice bad 0 96)).
Proof. split; [vm_compute; reflexivity|]. split; [vm_compute; reflexivity|]. right. left. vm_compute. reflexivity. Qed.
(** full statement: the same wherever the damage is.  One wrong bit of the length field can turn an
    accepted frame into another accepted frame. *)
Theorem C33_length_refuted : exists msg msg' len len',
  (8 * (len + 6) <= length msg)%nat /\ length msg' = length msg /\ weight (diff msg msg') = 1%nat /\
  checksum true msg 0 0 = Some (true, Some len) /\ checksum true msg' 0 0 = Some (true, Some len') /\ len <> len'.
Proof.
  exists twin, (splice twin 20 [false]), 14%nat, 6%nat. destruct twin_ok as (A & B & C).
  split; [vm_compute; lia|]. split; [vm_compute; reflexivity|]. repeat split; auto. discriminate.
Qed.
Print Assumptions C33_length_refuted.
(** a frame whose last bytes have not arrived can be accepted: the slice of the buffer is shorter than
    the length field says and nothing compares the two *)
Theorem C33_incomplete_refuted : exists msg len,
  checksum true msg 0 0 = Some (true, Some len) /\ (length msg < 8 * (len + 6))%nat.
Proof. exists cut, 20%nat. exact cut_ok. Qed.
Print Assumptions C33_incomplete_refuted.

(* ---------- C35 ---------- *)
Theorem C35_msm : forall mt, 0 <= mt < 4096 ->
  (forall s n, s <> NONE -> (msmtype mt = (s, n) <-> msm_number mt s n)) /\
  (is_msmtype mt = true <-> exists s n, s <> NONE /\ msm_number mt s n) /\
  (dispatch mt = KMsm <-> exists s n, s <> NONE /\ msm_number mt s n) /\
  (forall s n s' n', msm_number mt s n -> msm_number mt s' n' -> s = s' /\ n = n').
Proof.
  intros mt H. split; [intros; now apply msmtype_iff|]. split; [apply is_msm_iff|].
  split; [rewrite dispatch_msm by exact H; apply is_msm_iff|].
  intros s n s' n' H1 H2.
  destruct H1 as (c & A1 & A2 & A3 & A4), H2 as (c' & B1 & B2 & B3 & B4).
  assert (c = c') by lia. subst c'. split; [congruence|lia].
Qed.
Print Assumptions C35_msm.
Example C35_msm_case : msmtype 1127 = (BDS, 7) /\ msm_number 1127 BDS 7 /\ msmtype 1078 = (NONE, 0) /\ dispatch 1114 = KMsm.
Proof. split; [reflexivity|]. split; [exists 5; repeat split; lia|]. split; reflexivity. Qed.

(** the published state space numbers: same branch, same constellation and same order everywhere *)
Theorem C35_ssr : forall mt s c, ssr_number mt s c ->
  dispatch mt = KSsr c /\ get_ssr_sys None mt = Some s /\ fst (ssrtype mt) = s /\
  ssr_order c = Some (snd (ssrtype mt) - 1) /\ is_ssrtype mt false = true /\ is_msmtype mt = false.
Proof. exact std_ssr_ok. Qed.
Print Assumptions C35_ssr.
Example C35_ssr_case : ssr_number 1259 BDS SCLK /\ dispatch 1259 = KSsr SCLK /\ ssrtype 1259 = (BDS, 2).
Proof. repeat split. now exists 1258, 1. Qed.
Theorem C35_ssr_unique : forall mt s c s' c', ssr_number mt s c -> ssr_number mt s' c' -> s = s' /\ c = c'.
Proof. exact ssr_unique. Qed.
Print Assumptions C35_ssr_unique.
(** the helper tables against each other and against the branches, for every number *)
Theorem C35_tables_partial : forall mt, 0 <= mt < 4096 ->
  (forall s c, mt2sct mt = Some (s, c) -> get_ssr_sys None mt = Some s /\
     (mt <> 63 -> dispatch mt = KSsr c \/ (dispatch mt = KNone /\ c = SVTEC))) /\
  (forall s n, ssrtype mt = (s, n) -> s <> NONE -> exists c, ssr_number mt s c /\ ssr_order c = Some (n - 1)) /\
  (forall c, dispatch mt = KSsr c -> exists s, get_ssr_sys None mt = Some s) /\
  (forall c, edispatch mt = KSsr c -> exists s, mt2sct mt = Some (s, c)).
Proof. exact tables_ok. Qed.
Print Assumptions C35_tables_partial.
Theorem C35_sct2mt : forall c s mt, sct2mt c s = mt -> mt <> -1 -> mt2sct mt = Some (s, c).
Proof. exact sct2mt_ok. Qed.
Print Assumptions C35_sct2mt.
Example C35_tables_case : mt2sct 66 = Some (BDS, SCLK) /\ dispatch 66 = KSsr SCLK /\ edispatch 66 = KSsr SCLK /\
  sct2mt SCLK BDS = 66 /\ sct2mt SCLK SBS = -1.
Proof. repeat split. Qed.
Theorem C35_is_ssr_partial : forall mt, mt <> 1069 -> (is_ssrtype mt false = true <->
  (exists s c, ssr_number mt s c) \/ 1264 <= mt <= 1270).
Proof. exact is_ssr_iff. Qed.
Print Assumptions C35_is_ssr_partial.
(** full statement: the four theorems above without their exceptions, and with every handled number
    in mt2sct.  63 is BeiDou orbit corrections for the tables and the encoder and BeiDou ephemeris for
    the decoder; 1069 is counted as a state space message although nothing handles it and
    get_ssr_sys raises; the QZSS, SBAS and BeiDou numbers 1246..1263 are decoded but raise in mt2sct. *)
Theorem C35_refuted :
  (exists mt c, mt2sct mt = Some (BDS, c) /\ edispatch mt = KSsr c /\ dispatch mt = KEph BDS) /\
  (exists mt, is_ssrtype mt false = true /\ dispatch mt = KNone /\ get_ssr_sys None mt = None) /\
  (exists mt s c, ssr_number mt s c /\ dispatch mt = KSsr c /\ mt2sct mt = None).
Proof.
  split; [exists 63, SORB; vm_compute; auto|]. split; [exists 1069; vm_compute; auto|].
  exists 1246, QZS, SORB. split; [now exists 1246, 0|]. vm_compute. auto.
Qed.
Print Assumptions C35_refuted.
