(** Theorems about RTCM troposphere, ionosphere and grid messages. *)
From Verif Require Import SatModel SatSpec TimeModel CssrState CssrFacts RtcmFrame RtcmFrameSpec RtcmSsr RtcmFrameProofs RtcmSsrSpec RtcmSsrProofs MsmSpec
  RAtmModel RAtmSpec RAtmProofs RAtmIono RAtmGrid Base BaseFacts.
From Coq Require Import ZifyBool ZifyNat Sorted.
Notation length := List.length.
Open Scope Z_scope.

(* ---------- C89 ---------- *)
(** full statement: every troposphere message is applied to its network; true for messages with residuals, networks 0 to 32 *)
Theorem C89_decode_partial : forall t r (st : ast) msg,
  trop_ok t -> t_res t = Some r -> length (a_lc st) = 33%nat -> t_gid t < 33 -> At msg 24 (trop_message t) ->
  exists st', decode_atm st msg = Some (st', (24 + length (trop_message t))%nat) /\ trop_effect t r st st'.
Proof. exact dec_trop. Qed.
Print Assumptions C89_decode_partial.

(** every message without residuals is an error, and so is every one for network 33 or above *)
Theorem C89_no_residual_error : forall t (st : ast) msg, trop_ok t -> t_res t = None -> At msg 24 (trop_message t) -> decode_atm st msg = None.
Proof. exact dec_trop_none. Qed.
Print Assumptions C89_no_residual_error.
Theorem C89_network_error : forall t r (st : ast) msg,
  trop_ok t -> t_res t = Some r -> length (a_lc st) = 33%nat -> 33 <= t_gid t -> At msg 24 (trop_message t) -> decode_atm st msg = None.
Proof. exact dec_trop_net. Qed.
Print Assumptions C89_network_error.

(** the encoder writes exactly the message and the decoder gives the values back *)
Theorem C89_round_trip_partial : forall e t r msg (st : ast),
  trop_ok t -> t_res t = Some r -> trop_given e t r -> length (a_lc st) = 33%nat -> t_gid t < 33 -> (24 + length (trop_message t) <= length msg)%nat ->
  exists m n st', encode_atm e msg = Some (m, n) /\ m = splice msg 24 (trop_message t) /\ length m = length msg /\
    decode_atm st m = Some (st', n) /\ trop_effect t r st st'.
Proof.
  intros e t r msg st Hok Er Hg N G L. pose proof (enc_trop e t r msg Hok Er Hg L) as E.
  destruct (dec_trop t r st (splice msg 24 (trop_message t)) Hok Er N G) as (st' & D1 & D2); [now apply splice_at|].
  eexists _, _, st'. split; [exact E|]. split; [reflexivity|]. split; [now apply splice_length|]. split; [exact D1|exact D2].
Qed.
Print Assumptions C89_round_trip_partial.

Ltac okt := cbn; repeat (first [ lia | exact I | progress auto | match goal with
  | |- _ /\ _ => split | |- Forall _ _ => constructor | |- StronglySorted _ _ => constructor | |- _ -> _ => intros; try discriminate
  | |- fits _ _ => unfold fits; cbn | |- _ \/ _ => right end ]; cbn).
Definition lc0 : lcr := LC [] [] [] None None 0 0 [] [] [] [].
Definition at0 : ast := AST 2200 gtime0 0 0 0 0 false false false (repeat lc0 33).
Definition c89_h : hdr := HDR 345600 3 true 0 5 777 2.
(** network 4, points 2 to 4, hydrostatic residuals only *)
Definition c89_t (res : bool) : trop :=
  TR c89_h 4 (Some 5) (Some (-3)) None (Some 100) (Some (-7)) (Some 2) (Some (-500)) (Some 11) (Some 12) (Some 300) (Some (-13)) (Some 14)
     (if res then Some (RS 2 6 0 [(Some 7, None); (None, None); (Some (-20), None)]) else None).
Definition c89_e : east :=
  EA 95 345600 3 true 5 777 2 4 6 0 1 0 [Some 22500; Some 12; Some 11; Some 2820; Some 14; Some (-13)]
     [Some 4725; Some 593; None] [Some 204; Some 53; Some 26] [Some 1; Some 1; Some 7; None; Some (-20); Some 9] [] 3 2 [] [] [].
Definition c89_net (x : option (ast * nat)) :=
  do (s, n) <- x; do l <- nth_error (a_lc s) 4; Some (n, l_ct l, l_maph l, l_mapw l, l_dth l, l_dtw l, (l_ng l, l_ofst l), (a_pid s, a_iod s)).
Example C89_case :
  (do (m, n) <- encode_atm c89_e (repeat true 400); c89_net (decode_atm at0 m)) =
  Some (285%nat, [Some 22500; Some 12; Some 11; Some 2820; Some 14; Some (-13)], [Some 4725; Some 593; None], [Some 204; Some 53; Some 26],
        Some [Some 0; Some 0; Some 7; None; Some (-20)], None, (3, 2), (777, 5)) /\
  decode_atm at0 (repeat false 24 ++ trop_message (c89_t false)) = None /\
  (do (m, n) <- encode_atm c89_e (repeat false 285); Some m) = Some (repeat false 24 ++ trop_message (c89_t true)).
Proof. vm_compute. auto. Qed.
Example C89_given : trop_ok (c89_t true) /\ exists r, t_res (c89_t true) = Some r /\ trop_given c89_e (c89_t true) r.
Proof.
  split.
  - unfold trop_ok, tres_ok, head_ok. okt.
  - eexists. split; [reflexivity|]. unfold trop_given. cbn. repeat split; auto.
Qed.
(** so the full statement fails *)
Theorem C89_decode_refuted : exists t (st : ast) msg, trop_ok t /\ length (a_lc st) = 33%nat /\ t_gid t < 33 /\ At msg 24 (trop_message t) /\ decode_atm st msg = None.
Proof.
  exists (c89_t false), at0, (repeat false 24 ++ trop_message (c89_t false)). split; [unfold trop_ok, tres_ok, head_ok; okt|].
  split; [reflexivity|]. split; [cbn; lia|]. split; [exists (repeat false 24), []; rewrite app_nil_r; split; reflexivity|vm_compute; reflexivity].
Qed.
Print Assumptions C89_decode_refuted.

(* ---------- C90 ---------- *)
(** full statement: every ionosphere message of the five constellations is applied to its network; true for networks 0 to 32,
    and with residuals of at least one bit *)
Theorem C90_decode_partial : forall mt s n (st : ast) msg,
  iono_number s = Some mt -> iono_ok s n -> length (a_lc st) = 33%nat -> n_gid n < 33 -> At msg 24 (iono_message mt s n) ->
  exists st', decode_atm st msg = Some (st', (24 + length (iono_message mt s n))%nat) /\ iono_effect s n st st'.
Proof.
  intros mt s n st msg Hm Hok N G A. unfold iono_message in *. destruct (mt_iono mt s msg _ Hm A) as [E A'].
  rewrite E. destruct (dec_iono s n st msg 36 Hok N G A') as (st' & D1 & D2). exists st'. split; [|exact D2].
  rewrite D1, app_length, bitsof_length. reflexivity.
Qed.
Print Assumptions C90_decode_partial.
Theorem C90_network_error : forall mt s n (st : ast) msg,
  iono_number s = Some mt -> iono_ok s n -> length (a_lc st) = 33%nat -> 33 <= n_gid n -> At msg 24 (iono_message mt s n) -> decode_atm st msg = None.
Proof.
  intros mt s n st msg Hm Hok N G A. unfold iono_message in *. destruct (mt_iono mt s msg _ Hm A) as [E A'].
  rewrite E. exact (dec_iono_net s n st msg 36 Hok N G A').
Qed.
Print Assumptions C90_network_error.

(** full statement: whatever is encoded is decoded again; true for polynomials listed by satellite number, without residuals *)
Theorem C90_round_trip_partial : forall e s n pgi msg (st : ast),
  iono_ok s n -> iono_given e s n pgi -> length (a_lc st) = 33%nat -> n_gid n < 33 -> (24 + length (iono_message (ea_mt e) s n) <= length msg)%nat ->
  exists m k st', encode_atm e msg = Some (m, k) /\ m = splice msg 24 (iono_message (ea_mt e) s n) /\ length m = length msg /\
    decode_atm st m = Some (st', k) /\ iono_effect s n st st'.
Proof.
  intros e s n g msg st Hok Hg N G L. pose proof (enc_iono e s n g msg Hok Hg L) as E. destruct Hg as (Hm & _).
  destruct (C90_decode_partial (ea_mt e) s n st (splice msg 24 (iono_message (ea_mt e) s n)) Hm Hok N G) as (st' & D1 & D2); [now apply splice_at|].
  eexists _, _, st'. split; [exact E|]. split; [reflexivity|]. split; [now apply splice_length|]. split; [exact D1|exact D2].
Qed.
Print Assumptions C90_round_trip_partial.

Definition c90_e (l : list (Z * list (option Z))) (stype : dict Z Z) (fl : Z) (res : dict Z (list (option Z))) : east :=
  EA 96 345600 3 true 5 777 2 4 0 0 0 fl [] [] [] [] [] 1 0 l stype res.
Definition c90_ci (x : option (bits * nat)) := do (m, n) <- x; do (s, k) <- decode_atm at0 m; do l <- nth_error (a_lc s) 4; Some (n, k, l_sat l, l_ci l, l_stype l).
(** polynomials of two satellites listed in the other order come back exchanged *)
Theorem C90_order_refuted : exists e a b, a <> b /\ zget 3 (ea_ci e) = Some [a] /\ zget 7 (ea_ci e) = Some [b] /\
  exists n k sats ci st, c90_ci (encode_atm e (repeat false 200)) = Some (n, k, sats, ci, st) /\ zget 3 ci = Some [b] /\ zget 7 ci = Some [a].
Proof.
  exists (c90_e [(7, [Some 70]); (3, [Some 30])] [(7, 0); (3, 0)] 2 []), (Some 30), (Some 70).
  split; [discriminate|]. split; [reflexivity|]. split; [reflexivity|]. do 5 eexists. split; [vm_compute; reflexivity|]. split; reflexivity.
Qed.
Print Assumptions C90_order_refuted.
(** a decoded message with residuals cannot be encoded again: whatever the polynomials, unless they have a fourth coefficient *)
Lemma res_short e : forall l msg i, ea_ng e <> 0 -> l <> [] -> Forall (fun x => (length (snd x) <= 3)%nat) l -> encode_res e l msg i = None.
Proof.
  intros [|[sat ci] l] msg i Hn H F; [congruence|]. apply Forall_cons_iff in F as [F _]. cbn [encode_res snd] in *. replace (ea_ng e =? 0) with false by lia.
  destruct (zget sat (ea_res e)); [|reflexivity]. cbn [bind]. replace (nth_error ci 3) with (@None (option Z)) by (symmetry; now apply nth_error_None). reflexivity.
Qed.
Theorem C90_residual_error : forall e s msg, iono_number s = Some (ea_mt e) -> Z.odd (ea_fstec e) = true -> ea_ng e <> 0 ->
  Exists (fun x => fst (sat2prn (fst x)) = s) (ea_ci e) -> Forall (fun x => (length (snd x) <= 3)%nat) (ea_ci e) -> encode_atm e msg = None.
Proof.
  intros e s msg Hm Hr Hn Hx F. unfold encode_atm.
  assert (D : edispatch (ea_mt e) = KSsr SSTEC /\ get_ssr_sys None (ea_mt e) = Some s)
    by (destruct s; cbn in Hm; try discriminate; injection Hm as <-; split; reflexivity).
  destruct D as [-> ->]. destruct (putu msg 24 12 (ea_mt e)) as [m0|]; [|reflexivity]. cbn [bind]. unfold encode_iono. rewrite Hr.
  set (l := filter _ (ea_ci e)).
  assert (Hl : l <> []).
  { apply Exists_exists in Hx as (x & Hi & Hs). intros E. assert (In x l) as H by (apply filter_In; split; [exact Hi|]; rewrite Hs; now destruct s). rewrite E in H. exact H. }
  assert (Fl : Forall (fun x => (length (snd x) <= 3)%nat) l).
  { apply Forall_forall. intros x Hi. apply filter_In in Hi as [Hi _]. exact (proj1 (Forall_forall _ _) F x Hi). }
  clearbody l.
  repeat (match goal with |- bind ?x _ = None => destruct x as [?|]; [|reflexivity]; cbn [bind]
                        | |- (let '(_, _) := ?p in _) = None => destruct p end).
  now apply res_short.
Qed.
Print Assumptions C90_residual_error.

Definition c90_n : iono := IO c89_h 4 (Some true) (Some (IR 1 2 6 3)) [IS 3 (Some 30) (Some 31) None [Some 5; None]; IS 7 (Some 70) (Some 71) (Some 72) [Some (-9); Some 1]].
Example C90_case :
  (do (s, k) <- decode_atm at0 (repeat false 24 ++ iono_message 96 GPS c90_n); do l <- nth_error (a_lc s) 4; Some (l_sat l, l_ci l, l_stype l, l_dstec l, (l_ng l, l_ofst l))) =
  Some ([3; 7], [(3, [Some 30; Some 31; None]); (7, [Some 70; Some 71; Some 72])], [(3, 1); (7, 1)],
        [(3, [Some 0; Some 40; None]); (7, [Some 0; Some (-72); Some 8])], (2, 1)) /\
  c90_ci (encode_atm (c90_e [(3, [Some 30; Some 31; None]); (40, [Some 1]); (7, [Some 70; Some 71; Some 72])] [(3, 1); (7, 1)] 2 []) (repeat true 300)) =
  Some (268%nat, 268%nat, [3; 7], [(3, [Some 30; Some 31; None]); (7, [Some 70; Some 71; Some 72])], [(3, 1); (7, 1)]).
Proof. vm_compute. auto. Qed.
Example C90_ok : iono_ok GPS c90_n /\ iono_number GPS = Some 96.
Proof.
  split; [|reflexivity]. unfold iono_ok, head_ok, owns. okt.
Qed.
Example C90_residual_case : encode_atm (c90_e [(3, [Some 30; Some 31; None])] [(3, 1)] 3 [(3, [Some 5])]) (repeat true 300) = None /\
  encode_atm (c90_e [(3, [Some 30; Some 31; None; Some 0])] [(3, 1)] 3 [(3, [Some 5])]) (repeat true 300) <> None.
Proof. split; [vm_compute; reflexivity|]. vm_compute. discriminate. Qed.

(* ---------- C91 ---------- *)
Theorem C91_points : forall g (st : gst) msg, grid_ok 0 g -> At msg 24 (grid_message 0 g) ->
  exists st', decode_mt61 st msg = Some (st', (24 + length (grid_message 0 g))%nat) /\ grid_effect 0 g st' /\ numbered g st' /\ steps_kept 0 g st'.
Proof. exact dec_type0. Qed.
Print Assumptions C91_points.
(** full statement: the same for messages without heights, whatever the first number; true but for the numbers, and from number 0 *)
Theorem C91_flat_partial : forall g (st : gst) msg, grid_ok 1 g -> d_ofst g = 0 -> At msg 24 (grid_message 1 g) ->
  exists st', decode_mt61 st msg = Some (st', (24 + length (grid_message 1 g))%nat) /\ grid_effect 1 g st' /\ steps_kept 1 g st' /\
    (forall k p, nth_error (gs_grid st') k = Some p -> gp_id p = match k with O => 0 | S j => Z.of_nat j end).
Proof. exact dec_type1. Qed.
Print Assumptions C91_flat_partial.
(** without heights every message with a second point gives the number of the first point to it as well *)
Theorem C91_flat_number_error : forall g (st : gst) msg, grid_ok 1 g -> d_ofst g = 0 -> d_steps g <> [] -> At msg 24 (grid_message 1 g) ->
  exists st' p q n, decode_mt61 st msg = Some (st', n) /\ nth_error (gs_grid st') 0 = Some p /\ nth_error (gs_grid st') 1 = Some q /\ gp_id p = gp_id q.
Proof.
  intros g st msg Hok Z0 Hs A. destruct (dec_type1 g st msg Hok Z0 A) as (st' & D & E & _ & I).
  assert (L : (2 <= length (gs_grid st'))%nat).
  { unfold grid_effect in E. destruct (d_ref g) as [[lat lon] alt]. destruct E as (_ & _ & _ & _ & _ & _ & _ & -> & _). destruct (d_steps g); [congruence|cbn [length]; lia]. }
  destruct (gs_grid st') as [|p [|q r]] eqn:Eg; cbn in L; [lia|lia|].
  exists st', p, q. eexists. split; [exact D|]. rewrite Eg. split; [reflexivity|]. split; [reflexivity|].
  rewrite (I 0%nat p eq_refl), (I 1%nat q eq_refl). reflexivity.
Qed.
Print Assumptions C91_flat_number_error.

Definition gs0 : gst := GS 0 false 0 0 0 [] [] (None, None, None) 0.
Definition c91_g (ofst : Z) : grid := GR 777 true 6 (Some 3500, Some (-13900), 90) ofst [(Some 10, Some (-20), Some 3); (Some 5, None, Some (-4)); (Some 1, Some 2, Some 0)].
Definition c91_run (ty : Z) (g : grid) := do (s, n) <- decode_mt61 gs0 (repeat false 24 ++ grid_message ty g); Some (gs_grid s, gs_dpos s, n).
(** and with a first number above zero the steps are stored for the wrong points, or the message is an error *)
Theorem C91_flat_offset_refuted :
  (exists g, grid_ok 1 g /\ exists st' n, decode_mt61 gs0 (repeat false 24 ++ grid_message 1 g) = Some (st', n) /\ ~ steps_kept 1 g st') /\
  (exists g, grid_ok 1 g /\ decode_mt61 gs0 (repeat false 24 ++ grid_message 1 g) = None).
Proof.
  assert (K : forall o, 0 <= o < 4096 -> grid_ok 1 (c91_g o)).
  { intros o Ho. unfold grid_ok. okt. }
  split; [exists (c91_g 2)|exists (c91_g 100)].
  - split; [apply K; lia|]. do 2 eexists. split; [vm_compute; reflexivity|]. vm_compute. discriminate.
  - split; [apply K; lia|]. vm_compute. reflexivity.
Qed.
Print Assumptions C91_flat_offset_refuted.
Example C91_case :
  c91_run 0 (c91_g 17) = Some ([GP 6 17 (Some 3500) (Some (-13900)) (Some 10); GP 6 18 (Some 3510) (Some (-13920)) (Some 13);
    GP 6 19 (Some 3515) None (Some 9); GP 6 20 (Some 3516) None (Some 9)], [(Some 10, Some (-20), Some 3); (Some 5, None, Some (-4)); (Some 1, Some 2, Some 0)], 241%nat) /\
  c91_run 1 (c91_g 0) = Some ([GP 6 0 (Some 3500) (Some (-13900)) (Some 0); GP 6 0 (Some 3510) (Some (-13920)) (Some 0);
    GP 6 1 (Some 3515) None (Some 0); GP 6 2 (Some 3516) None (Some 0)], [(Some 10, Some (-20), Some 0); (Some 5, None, Some 0); (Some 1, Some 2, Some 0)], 204%nat).
Proof. vm_compute. auto. Qed.
Example C91_ok : grid_ok 0 (c91_g 17) /\ grid_ok 1 (c91_g 0).
Proof. unfold grid_ok. okt. Qed.
