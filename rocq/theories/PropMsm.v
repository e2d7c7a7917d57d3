(** Theorems about RTCM multiple signal messages. *)
From Verif Require Import SatModel SatSpec TimeModel TimeSpec SigModel BitModel CssrState RtcmFrame RtcmFrameSpec
  RtcmSsrSpec MsmModel MsmSpec MsmProofs Base BaseFacts.
From Coq Require Import ZifyBool ZifyNat.
Open Scope Z_scope.
Notation length := List.length.

(* ---------- C36 ---------- *)
(** any message variant, any constellation, any masks with at most 64 cells, any field contents: every value is found
    at its satellite's row and its signal's column *)
Theorem C36_decode_partial : forall mt s msm week lock h sigs qs vs msg i,
  msm_number mt s msm -> msm_ok msm s h sigs qs vs -> At msg i (msm_message msm s h sigs vs) ->
  exists lock' ob, decode_msm mt week lock msg i = Some (lock', ob, (i + length (msm_message msm s h sigs vs))%nat) /\
    ticks 1000 (o_time ob) = epoch_ms s week (h_tow h) /\ normal 1000 (o_time ob) /\
    o_sig ob = qs /\ o_sat ob = map (fun v => prn2sat s (v_prn v)) vs /\
    Forall2 (fun v l => range_known msm v -> l = map (pseudorange msm v) (v_cells v)) vs (o_P ob) /\
    Forall2 (fun v l => range_known msm v -> channel_known msm s v -> l = map2 (phase msm v) qs (v_cells v)) vs (o_L ob) /\
    o_S ob = map (fun v => map (strength msm) (v_cells v)) vs /\
    (forall v, In v vs -> zget (prn2sat s (v_prn v)) lock' = Some (map (lock_time msm) (v_cells v))) /\
    (forall sat, ~ In sat (o_sat ob) -> zget sat lock' = zget sat lock).
Proof. exact dec_msm. Qed.
Print Assumptions C36_decode_partial.
Theorem C36_too_many : forall mt s msm week lock msg i sv sg, s <> NONE -> msmtype mt = (s, msm) ->
  getu msg (i + 61) 64 = Some sv -> getu msg (i + 125) 32 = Some sg ->
  (64 < length (fst (decode_mask sv 64 (first s))) * length (fst (decode_mask sg 32 1)))%nat ->
  decode_msm mt week lock msg i = None.
Proof. exact dec_msm_64. Qed.
Print Assumptions C36_too_many.

Definition c36_cell (a b c d e : Z) : option cell := Some (CELL (Some a) (Some b) c d e (Some 0)).
(** Galileo, three satellites, signals 2 (1C), 16 (7X), 23 (5Q); gaps in the cell mask *)
Definition c36_vs : list sv :=
  [SV 3 (Some 80) 512 0 (Some 5) [c36_cell 1000 2000 100 0 700; None; c36_cell (-1000) (-2000) 101 1 650];
   SV 11 (Some 79) 1 0 None [None; c36_cell 7 8 9 0 10; None];
   SV 36 (Some 90) 1023 0 (Some (-8191)) [c36_cell 0 0 0 0 0; None; Some (CELL None None 1023 1 1 None)]].
Definition c36_h := MH 12 345600123 0 1 0 0.
Definition c36_qs := [RS GAL TC 103; RS GAL TC 724; RS GAL TC 517].
Definition c36_msg : bits := repeat true 36 ++ msm_message 7 GAL c36_h [2; 16; 23] c36_vs ++ repeat false 30.
Example C36_ok : msm_number 1097 GAL 7 /\ names GAL [2; 16; 23] c36_qs /\ msm_ok 7 GAL c36_h [2; 16; 23] c36_qs c36_vs /\ Forall (range_known 7) c36_vs.
Proof.
  assert (N : names GAL [2; 16; 23] c36_qs) by (repeat constructor).
  split; [exists 2; repeat split; lia|]. split; [exact N|]. split.
  - split; [lia|]. split; [repeat split; cbn; lia|]. split; [repeat constructor; lia|]. split; [repeat constructor; lia|].
    split; [exact N|]. split; [repeat constructor; cbn; lia|]. split; [|split; [|split; [cbn; lia|discriminate]]].
    + unfold c36_vs. repeat apply Forall_cons; try apply Forall_nil;
        (split; [cbn; lia|]; split; [reflexivity|]; split; [|split; [intros m Hm; injection Hm as <-; cbn; lia|repeat split; cbn; lia]]);
        unfold present, c36_cell; cbn [flat_map v_cells app]; repeat apply Forall_cons; try apply Forall_nil;
        repeat split; cbn; lia.
    + unfold c36_vs, c36_qs, has_freq. repeat apply Forall_cons; try apply Forall_nil; unfold c36_cell; cbn [v_cells]; repeat (apply Forall2_cons || apply Forall2_nil); try exact I; discriminate.
  - unfold c36_vs. repeat apply Forall_cons; try apply Forall_nil; eexists; split; try reflexivity; lia.
Qed.
Example C36_case :
  (do (l, o, n) <- decode_msm 1097 2200 [] c36_msg 36;
   Some (n, o_sat o, o_sig o, o_time o, o_P o, o_S o, zget 68 l)) =
  Some (710%nat, [35; 43; 68], c36_qs, GT (86400 * 3657 + 604800 * 2200 + 345600) 123,
        [[Some (80 * 2 ^ 31 + 2 ^ 30 + 4000); Some 0; Some (80 * 2 ^ 31 + 2 ^ 30 - 4000)];
         [Some 0; Some (79 * 2 ^ 31 + 2 ^ 21 + 28); Some 0];
         [Some (90 * 2 ^ 31 + 1023 * 2 ^ 21); Some 0; None]],
        [[700; 0; 650]; [0; 10; 0]; [0; 0; 1]], Some [0; 0; 1023]).
Proof. vm_compute. reflexivity. Qed.

(** full statement: the same for every message.
    A satellite without a rough range: the fine part alone is reported as pseudorange instead of nothing. *)
Theorem C36_range_refuted : exists mt s msm h sigs qs v msg lock' ob n c,
  msm_number mt s msm /\ msm_ok msm s h sigs qs [v] /\ At msg 36 (msm_message msm s h sigs [v]) /\ v_cells v = [Some c] /\
  decode_msm mt 2200 [] msg 36 = Some (lock', ob, n) /\ pseudorange msm v (Some c) = None /\ o_P ob = [[Some 5120]].
Proof.
  pose (v := SV 3 None 0 0 None [Some (CELL (Some 40) (Some 40) 3 0 40 (Some 0))]). pose (h := MH 1 5000 0 0 0 0).
  exists 1074, GPS, 4, h, [2], [RS GPS TC 103], v. exists (repeat true 36 ++ msm_message 4 GPS h [2] [v] ++ []). do 3 eexists. exists (CELL (Some 40) (Some 40) 3 0 40 (Some 0)).
  split; [exists 0; repeat split; lia|]. split.
  - split; [lia|]. split; [repeat split; cbn; lia|]. split; [repeat constructor|]. split; [repeat constructor; lia|].
    split; [apply Forall2_cons; [reflexivity|apply Forall2_nil]|]. split; [repeat constructor|]. split; [|split; [|split; [cbn; lia|discriminate]]].
    + apply Forall_cons; [|apply Forall_nil]. split; [cbn; lia|]. split; [reflexivity|]. split; [|split; [discriminate|repeat split; cbn; lia]].
      apply Forall_cons; [|apply Forall_nil]. repeat split; cbn; lia.
    + apply Forall_cons; [|apply Forall_nil]. apply Forall2_cons; [discriminate|apply Forall2_nil].
  - split; [eexists _, _; split; reflexivity|]. split; [reflexivity|]. split; [vm_compute; reflexivity|]. split; reflexivity.
Qed.
Print Assumptions C36_range_refuted.
(** A reserved bit of the satellite mask: the observation is attributed to a satellite of another constellation. *)
Theorem C36_reserved_refuted : exists mt s msm h sigs v msg lock' ob n sat,
  msm_number mt s msm /\ At msg 36 (msm_message msm s h sigs [v]) /\ ~ owns s (v_prn v) /\
  decode_msm mt 2200 [] msg 36 = Some (lock', ob, n) /\ o_sat ob = [sat] /\ sat2prn sat = (GAL, 1).
Proof.
  pose (v := SV 33 (Some 70) 0 0 None [Some (CELL (Some 40) (Some 40) 3 0 40 (Some 0))]). pose (h := MH 1 5000 0 0 0 0).
  exists 1074, GPS, 4, h, [2], v. exists (repeat true 36 ++ msm_message 4 GPS h [2] [v] ++ []). do 4 eexists.
  split; [exists 0; repeat split; lia|]. split; [eexists _, _; split; reflexivity|]. split; [cbn; lia|].
  split; [vm_compute; reflexivity|]. split; reflexivity.
Qed.
Print Assumptions C36_reserved_refuted.
(** A signal bit without an entry in the table: nothing of the message is decoded. *)
Theorem C36_signal_refuted : forall mt s msm week lock msg i sg k, msmtype mt = (s, msm) ->
  getu msg (i + 125) 32 = Some sg -> In k (fst (decode_mask sg 32 1)) -> msm2rsig s TC k = None ->
  decode_msm mt week lock msg i = None.
Proof.
  intros mt s msm week lock msg i sg k Ht H2 Hi Hk. unfold decode_msm. rewrite Ht.
  assert (O : omap (msm2rsig s TC) (fst (decode_mask sg 32 1)) = None).
  { induction (fst (decode_mask sg 32 1)) as [|x l IH]; [destruct Hi|]. cbn [omap]. destruct Hi as [->|Hi]; [now rewrite Hk|].
    destruct (msm2rsig s TC x); [cbn [bind]|reflexivity]. now rewrite (IH Hi). }
  do 6 (match goal with |- (do _ <- getu msg ?a ?b; _) = None => destruct (getu msg a b); cbn [bind]; [|reflexivity] end).
  replace (i + 53 + 8 + 64)%nat with (i + 125)%nat by lia. rewrite H2. cbn [bind]. clear H2 Hi.
  set (sig := fst (decode_mask sg 32 1)) in *. clearbody sig.
  destruct (guard _); [cbn [bind]|reflexivity]. destruct (cell_masks _ _ _ _) as [[sn j]|]; [cbn [bind]|reflexivity].
  destruct (sat_part _ _ _ _) as [[[r ex] j']|]; [cbn [bind]|reflexivity]. destruct (sig_part _ _ _ _) as [[c j'']|]; [cbn [bind]|reflexivity].
  rewrite O. reflexivity.
Qed.
Print Assumptions C36_signal_refuted.
Example C36_signal_case : msm2rsig GPS TC 5 = None /\ fst (decode_mask 0x48000000 32 1) = [2; 5].
Proof. split; reflexivity. Qed.
(** GLONASS without extended information: the phase is computed with channel -7, whatever the satellite's channel. *)
Theorem C36_channel_refuted : exists h v msg lock' ob n,
  At msg 36 (msm_message 4 GLO h [2] [v]) /\ decode_msm 1084 2200 [] msg 36 = Some (lock', ob, n) /\
  v_ex v = 8 /\ frequency (RS GLO TC 103) (Some 1) = Some 1602562500 /\
  o_L ob = [[Some (1598062500 * (70 * 2 ^ 31 + 160))]].
Proof.
  pose (v := SV 3 (Some 70) 0 8 None [Some (CELL (Some 40) (Some 40) 3 0 40 (Some 0))]). pose (h := MH 1 5000 0 0 0 0).
  exists h, v. exists (repeat true 36 ++ msm_message 4 GLO h [2] [v] ++ []). do 3 eexists.
  split; [eexists _, _; split; reflexivity|]. split; [vm_compute; reflexivity|]. repeat (split; [reflexivity|]). vm_compute. reflexivity.
Qed.
Print Assumptions C36_channel_refuted.
(** Around the end of the week the epoch is a week off: BeiDou in the first 14 s of a GPS week (its week is not over yet),
    GLONASS in the last three hours (the Moscow week has begun). *)
Theorem C36_week_refuted :
  (exists w t, 0 <= t < 604800000 /\
     ticks 1000 (decode_msm_time BDS w ((t - 14000) mod 604800000)) = gps_ms w t + 604800000) /\
  (exists w t, 0 <= t < 604800000 /\ leap_count 1000 (gps_ms w t - 18000) = 18 /\
     let moscow := (t - 18000 + 10800000) mod 604800000 in
     ticks 1000 (decode_msm_time GLO w (2 ^ 27 * (moscow / 86400000) + moscow mod 86400000)) = gps_ms w t - 604800000).
Proof. split; [exists 2200, 5000; split; [lia|vm_compute; reflexivity]|exists 2200, 600000000; split; [lia|split; vm_compute; reflexivity]]. Qed.
Print Assumptions C36_week_refuted.

(* ---------- C37 ---------- *)
(** full statement: a lock time that decreases sets the loss-of-lock flag.  The flag is never set, whatever the message
    and whatever was received before: the guard looks for a number in a list of lists. *)
Theorem C37_refuted : forall mt week lock msg i lock' ob n, decode_msm mt week lock msg i = Some (lock', ob, n) ->
  forall l x, In l (o_lli ob) -> In x l -> x = 0.
Proof. exact msm_lli. Qed.
Print Assumptions C37_refuted.
(** two epochs of one signal: lock time indicator 1023, then 0 with the half-cycle ambiguity flag *)
Definition c37_msg (t lk hf : Z) : bits :=
  repeat true 36 ++ msm_message 7 GAL (MH 12 t 0 1 0 0) [2] [SV 3 (Some 80) 512 0 (Some 5) [c36_cell 1000 2000 lk hf 700]].
Example C37_case : exists l1 o1 n1 l2 o2 n2,
  decode_msm 1097 2200 [] (c37_msg 1000 1023 0) 36 = Some (l1, o1, n1) /\
  decode_msm 1097 2200 l1 (c37_msg 2000 0 1) 36 = Some (l2, o2, n2) /\
  zget 35 l1 = Some [1023] /\ zget 35 l2 = Some [0] /\ o_lli o2 = [[0]].
Proof. do 6 eexists. split; [vm_compute; reflexivity|]. split; [vm_compute; reflexivity|]. repeat split. Qed.
