(** C43, C44 (SBAS part) and C69: SBAS masks, corrections, ionospheric grid and interpolation. *)
From Coq Require Import QArith.
From Verif Require Import SatModel CssrState CssrSpec SbasModel SbasSpec SbasIonoModel SbasIonoSpec SbasProofs SbasLong SbasGrid SbasIonoProofs.
From Verif Require Import FieldFacts.
From Verif Require Import Base.
Notation length := List.length.
Open Scope Z_scope.

(* ---------------- C44: corrections follow the current mask ---------------- *)
(** a mask message announces its satellites in the order of their slots *)
Theorem C44_mask : forall pre iodp m rest s, mask_ok m -> U 2 iodp ->
  exists s', decode_l1 (mask_msg pre iodp m rest) s = Some s' /\
    ss_sat s' = map slot_sat (slots m) /\ ss_iodp s' = iodp /\ NoDup (ss_sat s') /\
    ss_hclk s' = ss_hclk s /\ (forall a, long s' a = long s a).
Proof. exact mask_decoded. Qed.
Print Assumptions C44_mask.
(** no other message, whatever its bits, changes the mask or its issue *)
Theorem C44_mask_kept : forall msg s s', decode_l1 msg s = Some s' -> getu msg 8 6 <> Some 1 -> ss_sat s' = ss_sat s /\ ss_iodp s' = ss_iodp s.
Proof. exact mask_kept. Qed.
Print Assumptions C44_mask_kept.
(** fast corrections: ignored under another issue; otherwise entry k of type mt is that of mask position 13(mt-2)+k.
    The error indicators are right when the block is completely covered by the mask. *)
Theorem C44_fast_partial : forall pre mt iodf iodp fcs uds rest s, 2 <= mt <= 5 -> U 2 iodp -> fast_ok 13 fcs uds -> NoDup (ss_sat s) ->
  exists s', decode_l1 (fast_msg pre mt iodf iodp fcs uds rest) s = Some s' /\
    (iodp <> ss_iodp s -> s' = s) /\
    (iodp = ss_iodp s ->
      ss_sat s' = ss_sat s /\ ss_iodp s' = ss_iodp s /\ (forall b, long s' b = long s b) /\
      (forall j a, nth_error (ss_sat s) j = Some a ->
        zget a (ss_hclk s') = match entry fcs (Z.to_nat (13 * (mt - 2))) j with Some v => Some (fast_val v) | None => zget a (ss_hclk s) end) /\
      (forall a, ~ In a (ss_sat s) -> zget a (ss_hclk s') = zget a (ss_hclk s)) /\
      ((Z.to_nat (13 * (mt - 2)) + 13 <= length (ss_sat s))%nat -> forall j a, nth_error (ss_sat s) j = Some a ->
        zget a (ss_udrei s') = match entry uds (Z.to_nat (13 * (mt - 2))) j with Some v => Some v | None => zget a (ss_udrei s) end)).
Proof. exact fast_decoded. Qed.
Print Assumptions C44_fast_partial.
Theorem C44_mixed_fast_partial : forall pre iodp blk iodf spare fcs uds h rest s, U 2 iodp -> U 2 blk -> fast_ok 6 fcs uds -> NoDup (ss_sat s) ->
  exists s', decode_l1 (mixed_msg pre iodp blk iodf spare fcs uds h rest) s = Some s' /\
    (iodp <> ss_iodp s -> s' = s) /\
    (iodp = ss_iodp s ->
      ss_sat s' = ss_sat s /\ ss_iodp s' = ss_iodp s /\
      (forall j a, nth_error (ss_sat s) j = Some a ->
        zget a (ss_hclk s') = match entry fcs (Z.to_nat (13 * blk)) j with Some v => Some (fast_val v) | None => zget a (ss_hclk s) end) /\
      (forall a, ~ In a (ss_sat s) -> zget a (ss_hclk s') = zget a (ss_hclk s)) /\
      ((Z.to_nat (13 * blk) + 6 <= length (ss_sat s))%nat -> forall j a, nth_error (ss_sat s) j = Some a ->
        zget a (ss_udrei s') = match entry uds (Z.to_nat (13 * blk)) j with Some v => Some v | None => zget a (ss_udrei s) end)).
Proof. exact mixed_fast_decoded. Qed.
Print Assumptions C44_mixed_fast_partial.
(** long-term corrections, when the mask begins with the GPS satellites in a row (so that mask position = PRN) *)
Theorem C44_long_partial : forall pre h1 h2 rest s, half_ok h1 -> half_ok h2 -> half_iodp h1 = ss_iodp s -> half_iodp h2 = ss_iodp s ->
  Forall (fun e => 0 < e_slot e -> e_slot e <= 32 /\ mask_pos s (e_slot e) = Some (slot_sat (e_slot e))) (half_ents h1 ++ half_ents h2) ->
  exists s', decode_l1 (long_msg pre h1 h2 rest) s = Some s' /\
    ss_sat s' = ss_sat s /\ ss_iodp s' = ss_iodp s /\ ss_hclk s' = ss_hclk s /\ ss_udrei s' = ss_udrei s /\
    forall a, a <> 0 -> long s' a = match last_ent (mask_pos s) a (half_ents h1 ++ half_ents h2) with
                                    | Some e => Some (ent_val e) | None => long s a end.
Proof. exact long_decoded. Qed.
Print Assumptions C44_long_partial.

(** states used as witnesses: mask GPS 5, 7 and 12 with issue 2; mask GPS 1 to 14 with issue 2 *)
Definition st5 : sst := set_ss_mask [5; 7; 12] 2 (sbas_new 0).
Definition st14 : sst := set_ss_mask (map Z.of_nat (seq 1 14)) 2 (sbas_new 0).
Definition e0 (k iod dx : Z) : lent := LE k iod dx (-3) 4 5 (0, 0, 0, 0).
Definition hf (k iodp sp : Z) : lhalf := L0 (e0 k 40 100) (e0 0 0 0) iodp sp.
Definition fcw : list Z := [8; -8; 2047; 16; 24; -32; 40; 48; 56; 64; -72; 80; 88].
Definition udw : list Z := [1; 2; 3; 4; 5; 6; 7; 8; 9; 10; 11; 12; 13].
Ltac ok := unfold half_ok, ent_ok, fast_ok, U, S_; cbn; repeat match goal with |- _ /\ _ => split | |- Forall _ _ => constructor end; try reflexivity; lia.

(** an entry for mask position 1 of a mask that begins with GPS 5 is stored for GPS 1 *)
Theorem C44_long_refuted : exists pre h1 h2 rest s s' a,
  half_ok h1 /\ half_ok h2 /\ half_iodp h1 = ss_iodp s /\ half_iodp h2 = ss_iodp s /\
  decode_l1 (long_msg pre h1 h2 rest) s = Some s' /\ mask_pos s 1 = Some a /\
  last_ent (mask_pos s) a (half_ents h1 ++ half_ents h2) <> None /\ long s' a = None /\ long s' (slot_sat 1) <> None.
Proof.
  exists 83, (hf 1 2 0), (hf 0 2 0), [], st5.
  exists (match decode_l1 (long_msg 83 (hf 1 2 0) (hf 0 2 0) []) st5 with Some t => t | None => st5 end), 5.
  split; [ok|]. split; [ok|]. split; [reflexivity|]. split; [reflexivity|]. split; [vm_compute; reflexivity|]. split; [reflexivity|].
  split; [vm_compute; discriminate|]. split; [vm_compute; reflexivity|vm_compute; discriminate].
Qed.
Print Assumptions C44_long_refuted.
(** both halves are of another issue, yet a correction is stored *)
Theorem C44_issue_refuted : exists pre h1 h2 rest s s' a,
  half_ok h1 /\ half_ok h2 /\ half_iodp h1 <> ss_iodp s /\ half_iodp h2 <> ss_iodp s /\
  decode_l1 (long_msg pre h1 h2 rest) s = Some s' /\ long s a = None /\ long s' a <> None.
Proof.
  exists 83, (hf 4 1 0), (hf 4 1 0), [], st14.
  exists (match decode_l1 (long_msg 83 (hf 4 1 0) (hf 4 1 0) []) st14 with Some t => t | None => st14 end), 8.
  split; [ok|]. split; [ok|]. split; [discriminate|]. split; [discriminate|]. split; [vm_compute; reflexivity|].
  split; [vm_compute; reflexivity|vm_compute; discriminate].
Qed.
Print Assumptions C44_issue_refuted.
(** the long-term half of a mixed message is not stored *)
Theorem C44_mixed_long_refuted : exists pre iodp blk iodf spare fcs uds h rest s s' a,
  fast_ok 6 fcs uds /\ half_ok h /\ iodp = ss_iodp s /\ half_iodp h = ss_iodp s /\
  decode_l1 (mixed_msg pre iodp blk iodf spare fcs uds h rest) s = Some s' /\
  (exists e, In e (half_ents h) /\ mask_pos s (e_slot e) = Some a /\ slot_sat (e_slot e) = a) /\ long s' a = None.
Proof.
  exists 83, 2, 0, 0, 0, (firstn 6 fcw), (firstn 6 udw), (hf 3 2 0), [], st14.
  exists (match decode_l1 (mixed_msg 83 2 0 0 0 (firstn 6 fcw) (firstn 6 udw) (hf 3 2 0) []) st14 with Some t => t | None => st14 end), 3.
  split; [ok|]. split; [ok|]. split; [reflexivity|]. split; [reflexivity|]. split; [vm_compute; reflexivity|].
  split; [exists (e0 3 40 100); split; [now left|split; reflexivity]|vm_compute; reflexivity].
Qed.
Print Assumptions C44_mixed_long_refuted.
(** with a mask of three satellites the error indicators are read from the correction field *)
Theorem C44_udrei_refuted : exists pre mt iodf iodp fcs uds rest s s' j a u,
  2 <= mt <= 5 /\ fast_ok 13 fcs uds /\ NoDup (ss_sat s) /\ iodp = ss_iodp s /\
  decode_l1 (fast_msg pre mt iodf iodp fcs uds rest) s = Some s' /\
  nth_error (ss_sat s) j = Some a /\ nth_error uds (j - Z.to_nat (13 * (mt - 2))) = Some u /\ zget a (ss_udrei s') <> Some u.
Proof.
  exists 83, 2, 0, 2, fcw, udw, [], st5.
  exists (match decode_l1 (fast_msg 83 2 0 2 fcw udw []) st5 with Some t => t | None => st5 end), 0%nat, 5, 1.
  split; [lia|]. split; [ok|]. split. { repeat constructor; cbn; intuition discriminate. } split; [reflexivity|]. split; [vm_compute; reflexivity|].
  split; [reflexivity|]. split; [reflexivity|vm_compute; discriminate].
Qed.
Print Assumptions C44_udrei_refuted.

Example C44_mask_ex :
  option_map (fun s => (ss_sat s, ss_iodp s))
    (decode_l1 (mask_msg 83 1 (map (fun k => existsb (Nat.eqb k) [4; 6; 11; 37; 60; 120; 128]%nat) (seq 0 210)) []) (sbas_new 0))
  = Some (map slot_sat [5; 7; 12; 38; 61; 121; 129], 1).
Proof. vm_compute. reflexivity. Qed.
Example C44_fast_ex :
  option_map (fun s => (map (fun a => zget a (ss_hclk s)) [1; 2; 3; 6; 13; 14], map (fun a => zget a (ss_udrei s)) [1; 13]))
    (decode_l1 (fast_msg 83 2 0 2 fcw udw []) st14)
  = Some ([Some (Some (-8)); Some (Some 8); Some None; Some (Some 32); Some (Some (-88)); None], [Some 1; Some 13]).
Proof. vm_compute. reflexivity. Qed.
Example C44_fast_other_issue : decode_l1 (fast_msg 83 2 0 3 fcw udw []) st14 = Some st14.
Proof. vm_compute. reflexivity. Qed.
Example C44_long_ex :
  option_map (fun s => (long s 3, long s 9, long s 4))
    (decode_l1 (long_msg 83 (L0 (e0 3 40 100) (e0 9 41 (-7)) 2 0) (L1 (LE 3 42 1000 (-1000) 7 (-8) (1, -2, 3, -4)) 100 2) []) st14)
  = Some (Some (42, (Some (-1000), Some 1000, Some (-7)), Some (-8), (Some (-1), Some 2, Some (-3)), Some (-4)),
          Some (41, (Some 7, Some 3, Some (-4)), Some 5, (Some 0, Some 0, Some 0), Some 0), None).
Proof. vm_compute. reflexivity. Qed.

(* ---------------- C69: grid delays belong to the announced grid points ---------------- *)
(** a mask for a band not yet known announces exactly its points, with no delay yet *)
Theorem C69_mask_partial : forall pre nb band iodi m rest s, U 4 nb -> U 4 band -> U 2 iodi -> length m = 201%nat ->
  exists s', decode_l1 (igp_msg pre nb band iodi m rest) s = Some s' /\ ss_iodi s' = iodi /\
    zget band (ss_igp s') = Some (sel m (zs 0 201)) /\ NoDup (sel m (zs 0 201)) /\
    (zget band (ss_vtec s) = None -> zget band (ss_givei s) = None ->
      exists v g, zget band (ss_vtec s') = Some v /\ zget band (ss_givei s') = Some g /\
        length v = length (sel m (zs 0 201)) /\ length g = length (sel m (zs 0 201)) /\
        (forall p, In p (sel m (zs 0 201)) -> grid s' band p = Some (Some 0, 0))) /\
    (forall b p, b <> band -> grid s' b p = grid s b p).
Proof. exact igp_decoded. Qed.
Print Assumptions C69_mask_partial.
(** delays are stored at their grid points under the current issue, the arrays being those of the mask *)
Theorem C69_delays_partial : forall pre band bid l iodi rest s idx v g,
  U 4 band -> U 4 bid -> U 2 iodi -> delay_ok l ->
  zget band (ss_igp s) = Some idx -> zget band (ss_vtec s) = Some v -> zget band (ss_givei s) = Some g ->
  NoDup idx -> length v = length idx -> length g = length idx ->
  exists s', decode_l1 (delay_msg pre band bid l iodi rest) s = Some s' /\
    (iodi <> ss_iodi s -> s' = s) /\
    (iodi = ss_iodi s ->
      (forall k p, nth_error idx k = Some p -> grid s' band p =
         match entry l (Z.to_nat (15 * bid)) k with Some vg => Some (delay_val (fst vg), snd vg) | None => grid s band p end) /\
      (forall b p, b <> band -> grid s' b p = grid s b p) /\
      ss_igp s' = ss_igp s /\ ss_iodi s' = ss_iodi s).
Proof. exact delays_decoded. Qed.
Print Assumptions C69_delays_partial.
Definition points (l : list nat) : bits := map (fun k => existsb (Nat.eqb k) l) (seq 0 201).
Definition run (l : list bits) : option sst := fold_left (fun o m => do s <- o; decode_l1 m s) l (Some (sbas_new 0)).
Definition dl (l : list (Z * Z)) : list (Z * Z) := firstn 15 (l ++ repeat (0, 0) 15).
Definition hist1 : list bits := [igp_msg 83 1 0 0 (points [3; 4]%nat) []; delay_msg 83 0 0 (dl [(80, 3); (96, 4)]) 0 []].
(** a new mask alone makes a usable delay appear at a point for which none was ever sent *)
Theorem C69_refuted : exists pre nb band iodi m rest s s' p,
  run hist1 = Some s /\ length m = 201%nat /\ iodi <> ss_iodi s /\ grid s band p = None /\
  decode_l1 (igp_msg pre nb band iodi m rest) s = Some s' /\ grid s' band p = Some (Some 80, 3).
Proof.
  exists 83, 1, 0, 1, (points [5; 6]%nat), [].
  exists (match run hist1 with Some t => t | None => sbas_new 0 end).
  exists (match run (hist1 ++ [igp_msg 83 1 0 1 (points [5; 6]%nat) []]) with Some t => t | None => sbas_new 0 end), 5.
  split; [vm_compute; reflexivity|]. split; [reflexivity|]. split; [vm_compute; discriminate|]. split; [vm_compute; reflexivity|]. split; vm_compute; reflexivity.
Qed.
Print Assumptions C69_refuted.
(** a larger new mask: the delay of the third point is dropped, and asking for a position next to it raises an error *)
Definition hist2 : list bits := hist1 ++ [igp_msg 83 1 0 1 (points [3; 4; 5]%nat) []; delay_msg 83 0 0 (dl [(80, 3); (96, 4); (112, 5)]) 1 []].
Theorem C69_larger_refuted : exists s, run hist2 = Some s /\ nth_error (igp_t 0) 5 = Some (-40, -180) /\ grid s 0 5 = None /\
  ionoSBAS (-43) (-179) s = IErr.
Proof.
  exists (match run hist2 with Some t => t | None => sbas_new 0 end).
  split; [vm_compute; reflexivity|]. split; [vm_compute; reflexivity|]. split; vm_compute; reflexivity.
Qed.
Print Assumptions C69_larger_refuted.
Example C69_ex : option_map (fun s => (grid s 0 3, grid s 0 4, grid s 0 5)) (run hist1) = Some (Some (Some 80, 3), Some (Some 96, 4), None).
Proof. vm_compute. reflexivity. Qed.

(* ---------------- C43: interpolation ---------------- *)
(** the position in the cell is in the unit square, the weights are non-negative, sum to one and vanish at absent corners *)
Theorem C43_weights : forall lat lon ps x y l w, cell lat lon = (ps, x, y) -> length l = 4%nat -> weights l x y = Some w ->
  length w = 4%nat /\ Forall (fun q => 0 <= q)%Q w /\ (sumq w == 1)%Q /\
  (forall i, (forall o, nth_error l i <> Some (Some o)) -> (nth i w 0 == 0)%Q).
Proof.
  intros lat lon ps x y l w C L W. destruct (cell_unit _ _ _ _ _ C) as [X Y]. destruct (weights_ok l x y w L X Y W) as (A & B & D & E).
  repeat (split; [assumption|]). intros i H. apply E. unfold has. destruct (nth_error l i) as [[o|]|]; [destruct (H o eq_refl)|reflexivity|reflexivity].
Qed.
Print Assumptions C43_weights.
(** the delay lies between any bounds of the delays usable at the corners *)
Theorem C43_between : forall lat lon s ps x y d var m M, wf_grid s -> cell lat lon = (ps, x, y) -> ionoSBAS lat lon s = IVal (Some d) var ->
  (forall p z g, In p ps -> avail s p (Some z) g -> (m <= inject_Z z <= M)%Q) -> (m <= d <= M)%Q.
Proof. exact iono_between. Qed.
Print Assumptions C43_between.
(** a delay is produced when the four corners have one; none with fewer than three *)
Theorem C43_full : forall lat lon s ps x y, wf_grid s -> cell lat lon = (ps, x, y) ->
  (forall p, In p ps -> (exists v g, avail s p v g) /\ forall v g, avail s p v g -> v <> None) ->
  exists d var, ionoSBAS lat lon s = IVal (Some d) var.
Proof. exact iono_full. Qed.
Print Assumptions C43_full.
Theorem C43_few : forall lat lon s ps x y i j, wf_grid s -> cell lat lon = (ps, x, y) -> (i < j < 4)%nat ->
  (forall k p, (k = i \/ k = j) -> nth_error ps k = Some p -> forall v g, ~ avail s p v g) -> ionoSBAS lat lon s = IZero.
Proof. exact iono_few. Qed.
Print Assumptions C43_few.
(** linear variation of the ionosphere is reproduced exactly, from four or three corners *)
Theorem C43_affine : forall lat lon s d var A B C, wf_grid s -> (inject_Z (-75) <= lat < inject_Z 75)%Q -> (lon < inject_Z 180)%Q ->
  ionoSBAS lat lon s = IVal (Some d) var ->
  (forall la lo z g, Qabs_le (inject_Z lo - lon) 10 -> Qabs_le (inject_Z la - lat) 10 -> avail s (la, norm lo) (Some z) g ->
     (inject_Z z == A + B * inject_Z lo + C * inject_Z la)%Q) ->
  (d == A + B * lon + C * lat)%Q.
Proof.
  intros lat lon s d var A B C WF L L' H F.
  assert (E : lon' lon = lon).
  { unfold lon'. destruct (Qle_bool (qz 180) lon) eqn:K; [|reflexivity]. apply Qle_bool_iff in K. exfalso. exact (Qlt_not_le _ _ L' K). }
  rewrite <- E. apply (iono_affine lat lon s d var A B C WF L H). rewrite E. exact F.
Qed.
Print Assumptions C43_affine.
(** bands 0 to 8 hold exactly the points of the grid; between 75 S and 85 N every corner looked for is one of them *)
Theorem C43_grid : forall la lo, In (la, lo) (flat_map igp_t (arange 0 9 1)) <-> in_grid la lo.
Proof. exact grid_table. Qed.
Print Assumptions C43_grid.
Theorem C43_corners_partial : forall lat lon ps x y, (inject_Z (-75) <= lat < inject_Z 85)%Q -> (inject_Z (-180) <= lon < inject_Z 540)%Q ->
  cell lat lon = (ps, x, y) -> forall p, In p ps -> in_grid (fst p) (snd p).
Proof. exact corners_in_grid. Qed.
Print Assumptions C43_corners_partial.

(** every grid point of the world usable, delay 80 everywhere *)
Definition world : sst :=
  let f {A} (g : Z -> A) := map (fun b => (b, g b)) (arange 0 11 1) in
  set_ss_iono 0 (f (fun b => map Z.of_nat (seq 0 (length (igp_t b))))) (f (fun b => repeat (Some 80) (length (igp_t b))))
    (f (fun b => repeat 3 (length (igp_t b)))) [] (sbas_new 0).
Lemma world_get k : 0 <= k <= 10 -> zget k (ss_igp world) = Some (map Z.of_nat (seq 0 (length (igp_t k)))) /\
  zget k (ss_vtec world) = Some (repeat (Some 80) (length (igp_t k))) /\ zget k (ss_givei world) = Some (repeat 3 (length (igp_t k))).
Proof.
  intros Hk. apply bands_in in Hk. change (arange 0 11 1) with [0; 1; 2; 3; 4; 5; 6; 7; 8; 9; 10] in Hk.
  repeat (destruct Hk as [<-|Hk]; [repeat split|]). destruct Hk.
Qed.
Lemma world_wf : wf_grid world.
Proof.
  intros b Hb v g V G. destruct (world_get b Hb) as (E1 & E2 & E3). rewrite E2 in V. rewrite E3 in G.
  exists (map Z.of_nat (seq 0 (length (igp_t b)))). split; [exact E1|].
  split; [apply FinFun.Injective_map_NoDup; [intros p q; apply Nat2Z.inj|apply seq_NoDup]|]. split.
  - apply Forall_forall. intros k Hk. apply in_map_iff in Hk. destruct Hk as (j & <- & Hj). apply in_seq in Hj. lia.
  - apply (f_equal (fun o => match o with Some l => length l | None => 0%nat end)) in V, G. cbn beta iota in V, G.
    rewrite repeat_length in V, G. rewrite map_length, seq_length. auto.
Qed.
(** near the poles, for some longitudes between 85 S and 75 S, and for longitudes below -180 no correction is made although
    every grid point is usable *)
Theorem C43_corners_refuted : wf_grid world /\ (forall la lo, in_grid la lo -> exists g, avail world (la, lo) (Some 80) g) /\
  ionoSBAS 86 10 world = IZero /\ ionoSBAS (-80) (-170) world = IZero /\ ionoSBAS (-80) 179 world = IZero /\ ionoSBAS 40 (-181) world = IZero.
Proof.
  split; [exact world_wf|]. split; [|vm_compute; auto].
  intros la lo H. apply grid_table in H. apply in_flat_map in H. destruct H as (b & Hb & Hp).
  apply arange_in in Hb; [|lia]. destruct Hb as (k & Hk & ->). replace (0 + 1 * k) with k in Hp by lia.
  apply In_nth_error in Hp. destruct Hp as [n Hn]. exists 3, k, n. split; [lia|]. split; [exact Hn|].
  assert (Hl : (n < length (igp_t k))%nat) by (apply nth_error_Some; congruence).
  split; [|lia].
  destruct (world_get k ltac:(lia)) as (E1 & E2 & E3). unfold grid. rewrite E1, E2, E3.
  rewrite (at_point_nth _ _ n); [|apply FinFun.Injective_map_NoDup; [intros p q; apply Nat2Z.inj|apply seq_NoDup]
     |rewrite combine_length, !repeat_length, map_length, seq_length; lia|].
  - rewrite combine_nth_error by (rewrite !repeat_length; reflexivity). rewrite !nth_error_repeat by exact Hl. reflexivity.
  - rewrite nth_error_map, (nth_error_nth' _ 0%nat) by (rewrite seq_length; exact Hl). now rewrite seq_nth.
Qed.
Print Assumptions C43_corners_refuted.
Definition deq (r : ires) (d : Q) : bool := match r with IVal (Some e) _ => Qeq_bool e d | _ => false end.
Example C43_ex : deq (ionoSBAS (102 # 10) (1357 # 10) world) 80 = true.
Proof. vm_compute. reflexivity. Qed.
(** three corners of a cell: delays 80, 96 and 112 *)
Definition tri : sst := set_ss_iono 0 [(0, [4; 5; 31])] [(0, [Some 80; Some 96; Some 112])] [(0, [3; 3; 3])] [] (sbas_new 0).
Example C43_triangle : map (nth_error (igp_t 0)) [4; 5; 31]%nat = map Some [(-45, -180); (-40, -180); (-40, -175)] /\
  deq (ionoSBAS (-41) (-179) tri) 96 = true /\ ionoSBAS (-44) (-176) tri = IZero.
Proof. vm_compute. auto. Qed.
