(** Theorems about RTCM minimum and SSR integrity messages. *)
From Verif Require Import SatModel SatSpec TimeModel CssrState CssrFacts RtcmFrame RtcmFrameSpec RtcmSsr RtcmFrameProofs RtcmSsrSpec RtcmSsrProofs MsmSpec
  RIntModel RIntSpec RIntProofs Base BaseFacts.
From Coq Require Import ZifyBool ZifyNat Sorted.
Notation length := List.length.
Open Scope Z_scope.

(* ---------- C92 ---------- *)
Theorem C92_minimum : forall mt n (st : ist) msg, mt = 3 \/ mt = 2000 -> mint_ok n -> At msg 24 (mint_message mt n) ->
  exists st', decode_int st msg = Some st' /\ mint_effect mt n st st'.
Proof. intros mt n st msg H. apply dec_mint. cbn. destruct H as [->| ->]; tauto. Qed.
Print Assumptions C92_minimum.

Definition c92_st : ist := IST 2200 gtime0 1 2 3 4 5 [(GLO, 3)] [(GLO, CR 1 [2] 3 [])] 6 7 8 [(GPS, [(9, 1)])] [9].
Definition c92_h : ihd := IH 345600500 777 4 25 99.
Definition c92_n : mint := MI c92_h 3 5
  [MC GPS 2 12345678901234567890 [2; 9; 32] 5 [MS 2 [0; 3; 7] 1 200 77; MS 31 [] 0 0 255];
   MC QZS 1 7 [194; 199] 2 [MS 194 [1] 3 1 2]; MC IRN 0 0 [] 0 []].
Definition c92_run (mt : Z) := decode_int c92_st (repeat false 24 ++ mint_message mt c92_n).
Example C92_case :
  (do s <- c92_run 2000; Some (i_iods s, i_min s, (i_tow s, i_pid s, i_vp s, i_udi s, i_aid s), i_time s, i_sat_e s)) =
  Some ([(GPS, 2); (QZS, 1); (IRN, 0)],
        [(GPS, CR 12345678901234567890 [2; 9; 32] 5 [(2, SR [0; 3; 7] 1 200 77); (31, SR [] 0 0 255)]);
         (QZS, CR 7 [194; 199] 2 [(prn2sat QZS 194, SR [1] 3 1 2)]); (IRN, CR 0 [] 0 [])],
        (345600500, 777, 15, 25, 5), gpst2time 1000 2200 345600500, [9]) /\
  (do s <- c92_run 3; Some (i_aid s)) = Some 99.
Proof. vm_compute. auto. Qed.
Ltac okt := cbn; repeat (first [ lia | exact I | discriminate | progress auto | match goal with
  | |- _ /\ _ => split | |- Forall _ _ => constructor | |- StronglySorted _ _ => constructor | |- owns _ _ => unfold owns end ]; cbn).
Example C92_ok : mint_ok c92_n.
Proof. unfold mint_ok, ihead_ok, cons_ok, sats_ok. okt. Qed.

(* ---------- C93 ---------- *)
(** full statement: SSR integrity messages are applied as sent, and what the encoder writes is received; true for the decoder *)
Theorem C93_decode_partial : forall mt n (st : ist) msg, In mt [11; 12; 13; 2011] -> issr_ok n -> At msg 24 (issr_message mt n) ->
  exists st', decode_int st msg = Some st' /\ issr_effect mt n st st'.
Proof. exact dec_issr. Qed.
Print Assumptions C93_decode_partial.

Definition c93_n : issr := SI c92_h 555 2 7 [FC GPS 1 [(3, 0); (7, 1); (12, 2)]; FC GAL 3 [(36, 1)]].
Example C93_case :
  (do s <- decode_int c92_st (repeat false 24 ++ issr_message 11 c93_n);
   Some (i_iods s, i_flag s, i_sat_e s, (i_pidssr s, i_sidssr s, i_iodssr s), (i_tow s, i_aid s), i_min s)) =
  Some ([(GPS, 1); (GAL, 3)], [(GPS, [(3, 0); (7, 1); (12, 2)]); (GAL, [(prn2sat GAL 36, 1)])], [7; prn2sat GAL 36], (555, 2, 7), (345600500, 99),
        [(GLO, CR 1 [2] 3 [])]).
Proof. vm_compute. reflexivity. Qed.
Example C93_ok : issr_ok c93_n.
Proof. unfold issr_ok, ihead_ok, cons_ok, sats_ok. okt. Qed.

(** the encoder writes the header in another layout: its message is taken, and a satellite not to be used is not in the list *)
Definition c93_e (udi : Z) (a : Z) : eint := EI 11 555 2 7 777 345600500 15 udi [(GPS, (0, [(a, 0); (12, 1); (32, 2)]))].
Definition c93_back (e : eint) : option ist := do (m, n) <- encode_int e (repeat false 600); decode_int c92_st m.
Theorem C93_encoder_refuted :
  (exists e s, ei_con e = [(GPS, (0, [(11, 0); (12, 1); (32, 2)]))] /\ c93_back e = Some s /\ i_tow s <> ei_tow e /\ i_pid s <> ei_pid e /\ ~ In 12 (i_sat_e s)) /\
  (exists e m n, encode_int e (repeat false 600) = Some (m, n) /\ decode_int c92_st m = None).
Proof.
  split.
  - exists (c93_e 32 11). eexists. split; [reflexivity|]. split; [vm_compute; reflexivity|]. cbn. split; [lia|]. split; [lia|]. intuition lia.
  - exists (c93_e 25 3). do 2 eexists. split; [vm_compute; reflexivity|]. vm_compute. reflexivity.
Qed.
Print Assumptions C93_encoder_refuted.
