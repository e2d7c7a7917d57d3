(** C97. *)
From Verif Require Import RtcmSsrSpec RAtmModel RAtmSpec RAtmGrid RGridModel RGridSpec RGridProofs Base BaseFacts.
Notation length := List.length.
Open Scope Z_scope.

(** full statement: for all positions the points of the receiver are within one step of the points given; true for positions on the steps *)
Theorem C97_encode_partial : forall U ty e g msg, 0 < U -> ty = 0 \/ ty = 1 -> grid_ok ty g -> grid_given U ty e g ->
  (24 + length (grid_message ty g) <= length msg)%nat ->
  encode_mt61 U e msg = Some (splice msg 24 (grid_message ty g), (24 + length (grid_message ty g))%nat).
Proof. exact enc_grid. Qed.
Print Assumptions C97_encode_partial.

(** with heights, the receiver has every point where it was given *)
Theorem C97_round_trip_partial : forall U e g msg (st : gst), 0 < U -> grid_ok 0 g -> grid_given U 0 e g ->
  (24 + length (grid_message 0 g) <= length msg)%nat ->
  exists out st', encode_mt61 U e msg = Some (out, (24 + length (grid_message 0 g))%nat) /\
    decode_mt61 st out = Some (st', (24 + length (grid_message 0 g))%nat) /\
    gs_pid st' = eg_pid e /\ gs_mi st' = eg_mi e /\ gs_gid st' = eg_gid e /\ gs_type st' = eg_type e /\
    (forall k n a b c, nth_error (filter (fun p => fst p =? eg_gid e) (eg_grid e)) k = Some (n, (a, b, c)) ->
      exists p x y z, nth_error (gs_grid st') k = Some p /\ gp_nid p = n /\ gp_id p = eg_ofst e + Z.of_nat k /\
        gp_lat p = Some x /\ gp_lon p = Some y /\ gp_alt p = Some z /\ a = U * x /\ b = U * y /\ c = U * z).
Proof. exact grid_trip. Qed.
Print Assumptions C97_round_trip_partial.

(** wherever the points lie: point [k] is received less than [k + 1] steps from where it was given *)
Theorem C97_any_position : forall U e msg (st : gst), 0 < U -> any_grid U e -> (133 + 36 * (length (net_of e) - 1) <= length msg)%nat ->
  exists out n st', encode_mt61 U e msg = Some (out, n) /\ decode_mt61 st out = Some (st', n) /\ length (gs_grid st') = length (net_of e) /\
    (forall k a b c, nth_error (net_of e) k = Some (a, b, c) ->
      exists p x y z, nth_error (gs_grid st') k = Some p /\ gp_nid p = eg_gid e /\ gp_id p = eg_ofst e + Z.of_nat k /\
        gp_lat p = Some x /\ gp_lon p = Some y /\ gp_alt p = Some z /\
        Z.abs (a - U * x) <= (Z.of_nat k + 1) * (U - 1) /\ Z.abs (b - U * y) <= (Z.of_nat k + 1) * (U - 1) /\ Z.abs (c - U * z) <= (Z.of_nat k + 1) * (U - 1)).
Proof. exact grid_near. Qed.
Print Assumptions C97_any_position.

(** points between the steps: every difference is cut down on its own, so that the points of the receiver stay behind more and more *)
Definition c97_e : egrid := EG 61 777 true 6 0 17 ((5, (1, 2, 3)) :: map (fun k => (6, (350 + 9 * Z.of_nat k, -1390, 100))) (seq 0 30)).
Definition c97_run (U : Z) (e : egrid) : option (list gpt) :=
  do (m, n) <- encode_mt61 U e (repeat false 2000); do (s, _) <- decode_mt61 (GS 0 false 0 0 0 [] [] (None, None, None) 0) m; Some (gs_grid s).
Theorem C97_error_refuted : exists e pts p a n, c97_run 10 e = Some pts /\
  nth_error (filter (fun p => fst p =? eg_gid e) (eg_grid e)) 29 = Some (n, (a, -1390, 100)) /\ nth_error pts 29 = Some p /\
  exists x, gp_lat p = Some x /\ a - 10 * x = 261.
Proof.
  exists c97_e. do 4 eexists. split; [vm_compute; reflexivity|]. split; [vm_compute; reflexivity|]. split; [vm_compute; reflexivity|].
  eexists. split; vm_compute; reflexivity.
Qed.
Print Assumptions C97_error_refuted.

Definition c97_g : grid := GR 777 true 6 (Some 3500, Some (-13900), 90) 17 [(Some 10, Some (-20), Some 3); (Some (-5), Some 7, Some (-4)); (Some 1, Some 2, Some 0)].
Definition c97_x (ty ofst : Z) : egrid := EG 61 777 true 6 ty ofst [(6, (35000, -139000, 100)); (4, (1, 2, 3)); (6, (35100, -139200, 130)); (6, (35050, -139130, 90)); (7, (0, 0, 0)); (6, (35060, -139110, 90))].
Example C97_ok : grid_ok 0 c97_g /\ grid_ok 1 c97_g /\ grid_given 10 0 (c97_x 0 17) c97_g /\ grid_given 10 1 (c97_x 1 17) c97_g.
Proof.
  assert (K : forall ty, ty = 0 \/ ty = 1 -> grid_ok ty c97_g).
  { intros ty _. unfold grid_ok, c97_g, fits. cbn [d_ref d_pid d_gid d_ofst d_steps length]. repeat (split; [cbn; lia|]). repeat constructor; cbn; lia. }
  assert (G : forall ty, ty = 0 \/ ty = 1 -> grid_given 10 ty (c97_x ty 17) c97_g).
  { intros ty _. unfold grid_given. repeat (split; [reflexivity|]).
    intros k p Hk. destruct k as [|[|[|[|k]]]]; [injection Hk as <- .. | destruct k; discriminate];
    (do 2 eexists; repeat (split; [vm_compute; reflexivity|]); intros _; eexists; split; vm_compute; reflexivity). }
  split; [apply K; auto|]. split; [apply K; auto|]. split; apply G; auto.
Qed.
Example C97_case :
  c97_run 10 (c97_x 0 17) = Some [GP 6 17 (Some 3500) (Some (-13900)) (Some 10); GP 6 18 (Some 3510) (Some (-13920)) (Some 13);
    GP 6 19 (Some 3505) (Some (-13913)) (Some 9); GP 6 20 (Some 3506) (Some (-13911)) (Some 9)] /\
  (do (m, n) <- encode_mt61 10 (c97_x 1 17) (repeat false 300); Some (m, n)) =
    Some (splice (repeat false 300) 24 (grid_message 1 c97_g), 204%nat).
Proof. vm_compute. auto. Qed.
(** the bound is reached: 9 of 10 ticks more with every point *)
Example C97_any_ok : any_grid 10 c97_e /\ any_grid 10 (EG 61 1 false 6 0 0 (map (fun k => (6, (9 + 9 * Z.of_nat k, 0, 0))) (seq 0 256))) /\
  option_map (fun l => match nth_error l 29 with Some p => gp_lat p | None => None end) (c97_run 10 (EG 61 1 false 6 0 0 (map (fun k => (6, (9 + 9 * Z.of_nat k, 0, 0))) (seq 0 30)))) = Some (Some 0).
Proof. split; [|split; [|vm_compute; reflexivity]]; vm_compute; intuition (discriminate || congruence || lia || auto). Qed.
