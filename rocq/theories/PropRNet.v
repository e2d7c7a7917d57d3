(** Theorems about network RTK residual messages and times of RTCM messages. *)
From Verif Require Import SatModel SatSpec TimeModel TimeSpec TimeLeap CssrState CssrFacts RtcmFrame RtcmFrameSpec RtcmSsr RtcmFrameProofs RtcmSsrSpec RtcmSsrProofs
  MsmModel MsmSpec RNetModel RNetSpec RNetProofs Base BaseFacts.
From Coq Require Import ZifyBool ZifyNat.
Notation length := List.length.
Open Scope Z_scope.

(* ---------- C94 ---------- *)
(** full statement: every satellite of the message has the residuals sent, the others keep theirs, and the decoder takes over
    the time of the message; true but for the time *)
Theorem C94_residual_partial : forall s mt n (st : nst) msg, net_number s = Some mt -> net_ok s n -> At msg 24 (net_message mt s n) ->
  exists st', decode_nrtk st msg = Some (st', (24 + length (net_message mt s n))%nat) /\ net_effect s n st st' /\ n_time st' = n_time st.
Proof. exact dec_net. Qed.
Print Assumptions C94_residual_partial.

Definition c94_st : nst := NST 2200 (GT 1330560000 0) 1 2 3 [(9, (1, 2, 3, 4, 5)); (7, (0, 0, 0, 0, 1))].
Definition c94_n : nmsg := NM 345600 77 12 [NR 3 255 511 63 1023 0; NR 9 1 2 3 4 1023; NR 32 0 0 0 0 7].
Definition c94_run := decode_nrtk c94_st (repeat true 24 ++ net_message 1030 GPS c94_n ++ [true; false]).
Example C94_case : (do (s, i) <- c94_run; Some ((n_refid s, n_nrefs s, n_nsat s), n_r s, i)) =
  Some ((77, 12, 3), [(9, (1, 2, 3, 4, 1023)); (7, (0, 0, 0, 0, 1)); (3, (255, 511, 63, 1023, 0)); (32, (0, 0, 0, 0, 7))], 227%nat).
Proof. vm_compute. reflexivity. Qed.
Ltac okt := cbn; repeat (first [ lia | discriminate | match goal with
  | |- _ /\ _ => split | |- Forall _ _ => constructor | |- NoDup _ => constructor | |- owns _ _ => unfold owns end | progress intuition lia ]; cbn).
Example C94_ok : net_ok GPS c94_n.
Proof. unfold net_ok, nres_ok. okt. Qed.
(** the time stays what it was *)
Theorem C94_time_refuted : exists n (st : nst) msg st' k, net_ok GPS n /\ At msg 24 (net_message 1030 GPS n) /\ decode_nrtk st msg = Some (st', k) /\
  n_time st' <> net_epoch GPS (n_week st) (n_time st) (w_tow n).
Proof.
  exists c94_n, c94_st, (repeat true 24 ++ net_message 1030 GPS c94_n ++ [true; false]).
  assert (H : exists x, c94_run = Some x) by (vm_compute; eexists; reflexivity). destruct H as [[st' k] H]. exists st', k.
  assert (A : At (repeat true 24 ++ net_message 1030 GPS c94_n ++ [true; false]) 24 (net_message 1030 GPS c94_n)).
  { exists (repeat true 24), [true; false]. split; reflexivity. }
  split; [exact C94_ok|]. split; [exact A|]. split; [exact H|].
  destruct (C94_residual_partial GPS 1030 c94_n c94_st _ eq_refl C94_ok A) as (st2 & E & _ & T). unfold c94_run in H. rewrite E in H. injection H as <- _. rewrite T. vm_compute. discriminate.
Qed.
Print Assumptions C94_time_refuted.

(* ---------- C95 ---------- *)
(** full statement: decode_time gives the epoch of every message that carries one; true for observation messages, the
    published state space messages and network residuals but for BeiDou in the first 14 s of a week *)
Theorem C95_observation_partial : forall mt s msm h sigs vs week now msg, s <> NONE -> msm_number mt s msm -> head_fits h ->
  At msg 24 (bitsof 12 mt ++ msm_message msm s h sigs vs) ->
  exists t, decode_time week now msg = Some (Some t) /\ ticks 1000 t = epoch_ms s week (h_tow h) /\ normal 1000 t.
Proof. exact msm_epoch. Qed.
Print Assumptions C95_observation_partial.
Theorem C95_ssr_partial : forall mt s c h es week now msg, ssr_number mt s c -> head_ok false s h -> At msg 24 (message mt s c h es) ->
  decode_time week now msg = Some (Some (msg_time false week now s (g_tow h))).
Proof. exact ssr_time. Qed.
Print Assumptions C95_ssr_partial.
Theorem C95_network_partial : forall s mt week now n msg, net_number s = Some mt -> net_ok s n -> 1357 <= week ->
  (s = BDS -> 14 <= w_tow n < 604800) -> At msg 24 (net_message mt s n) -> decode_time week now msg = Some (Some (net_epoch s week now (w_tow n))).
Proof. exact net_time. Qed.
Print Assumptions C95_network_partial.

Definition c95_now : gtime := GT 1330560000 0.
Definition c95_h (tow : Z) : hdr := HDR tow 3 true 0 5 777 2.
Example C95_case :
  decode_time 2200 c95_now (repeat true 24 ++ bitsof 12 1077 ++ msm_message 7 GPS (MH 9 345600500 1 2 3 4) [] []) = Some (Some (GT 1646870400 500)) /\
  decode_time 2200 c95_now (repeat true 24 ++ bitsof 12 1127 ++ msm_message 7 BDS (MH 9 345600500 1 2 3 4) [] []) = Some (Some (GT 1646870414 500)) /\
  decode_time 2200 c95_now (repeat true 24 ++ bitsof 12 1087 ++ msm_message 7 GLO (MH 9 (4 * 2 ^ 27 + 10800250) 1 2 3 4) [] []) = Some (Some (GT 1646870418 250)) /\
  decode_time 2200 c95_now (repeat true 24 ++ message 1258 BDS SORB (c95_h 345600) []) = Some (Some (GT 1646870400 0)) /\
  decode_time 2200 c95_now (repeat true 24 ++ message 1064 GLO SCLK (c95_h 10000) []) = Some (Some (msg_time false 2200 c95_now GLO 10000)) /\
  decode_time 2200 c95_now (repeat true 24 ++ net_message 1303 BDS (NM 345600 1 2 [])) = Some (Some (GT 1646870414 0)) /\
  decode_time 2200 c95_now (repeat true 24 ++ net_message 1305 QZS (NM 345600 1 2 [])) = Some (Some (GT 1646870400 0)) /\
  decode_time 2200 c95_now (repeat true 24 ++ bitsof 12 1005 ++ repeat true 60) = Some None.
Proof. vm_compute. repeat split. Qed.
(** BeiDou network residuals in the first 14 s of the week: always a week early *)
Theorem C95_network_week_error : forall mt week now n msg, net_number BDS = Some mt -> net_ok BDS n -> 1357 <= week ->
  w_tow n < 14 -> At msg 24 (net_message mt BDS n) ->
  exists t, decode_time week now msg = Some (Some t) /\ gt t = gt (net_epoch BDS week now (w_tow n)) - 604800.
Proof. exact net_time_early. Qed.
Print Assumptions C95_network_week_error.
Example C95_week_case : decode_time 2200 c95_now (repeat true 24 ++ net_message 1303 BDS (NM 5 1 2 [])) = Some (Some (GT 1645920019 0)) /\
  net_epoch BDS 2200 c95_now 5 = GT 1646524819 0.
Proof. vm_compute. split; reflexivity. Qed.
(** IGS messages: the version and subtype are read as part of the time *)
Theorem C95_igs_refuted : exists h msg, head_ok true GPS h /\ At msg 24 (igs_message 1 21 GPS SORB h []) /\
  decode_time 2200 c95_now msg <> Some (Some (msg_time true 2200 c95_now GPS (g_tow h))).
Proof.
  exists (c95_h 345600), (repeat true 24 ++ igs_message 1 21 GPS SORB (c95_h 345600) []). split; [unfold head_ok; cbn; lia|]. split.
  - exists (repeat true 24), []. rewrite app_nil_r. split; reflexivity.
  - vm_compute. discriminate.
Qed.
Print Assumptions C95_igs_refuted.
(** the other numbers under which the decoder takes state space messages: never a time *)
Theorem C95_number_error : forall mt s c h es week now msg, carries mt s c -> ~ ssr_number mt s c -> At msg 24 (message mt s c h es) ->
  decode_time week now msg = Some None.
Proof. exact other_time. Qed.
Print Assumptions C95_number_error.
Example C95_number_case : carries 62 GAL SORB /\ ~ ssr_number 62 GAL SORB /\ decode_time 2200 c95_now (repeat true 24 ++ message 62 GAL SORB (c95_h 345600) []) = Some None.
Proof.
  split; [|split].
  - right. right. exists 0, 0. split; [reflexivity|]. split; [reflexivity|]. left. split; reflexivity.
  - intros (b & o & E1 & E2 & E). injection E1 as <-. injection E2 as <-. discriminate E.
  - vm_compute. reflexivity.
Qed.

(* ---------- C96 ---------- *)
(** full statement: the time field of an observation message gives back the time; true but for GLONASS in a leap second.
    From 1980-12-14 on *)
Theorem C96_round_trip_partial : forall s t, normal 1000 t -> 86400 * 4000 <= gt t ->
  (s = GLO -> ~ (exists i d, nth_error leap_days i = Some d /\ gt t = 86400 * d + Z.of_nat i)) ->
  let (w, e) := encode_msm_time s t in 0 <= e < 2 ^ 30 /\ decode_msm_time s w e = t.
Proof. exact msm_time_back. Qed.
Print Assumptions C96_round_trip_partial.
Example C96_case : map (fun s => encode_msm_time s (GT 1646870400 250)) [GPS; GLO; BDS] =
  [(2200, 345600250); (2200, 4 * 2 ^ 27 + 10782250); (2200, 345586250)].
Proof. vm_compute. reflexivity. Qed.
Theorem C96_leap_refuted : exists t, normal 1000 t /\ 86400 * 4000 <= gt t /\ let (w, e) := encode_msm_time GLO t in decode_msm_time GLO w e <> t.
Proof. exists (GT 1483228817 500). split; [split; cbn; lia|]. split; [cbn; lia|]. vm_compute. discriminate. Qed.
Print Assumptions C96_leap_refuted.
