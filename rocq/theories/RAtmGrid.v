(** The grid messages of RAtmSpec.v. *)
From Verif Require Import SatModel SatSpec TimeModel CssrState CssrFacts RtcmFrame RtcmSsr RtcmFrameSpec RtcmFrameProofs RtcmSsrSpec RtcmSsrProofs
  RAtmModel RAtmSpec RAtmProofs Base BaseFacts.
From Coq Require Import ZifyBool ZifyNat.
Notation length := List.length.
Open Scope Z_scope.

Lemma total_snoc l y : total (l ++ [y]) = oadd (total l) y.
Proof.
  induction l as [|[x|] l IH]; cbn [app total].
  - destruct y; cbn; [f_equal; lia|reflexivity].
  - rewrite IH. destruct (total l), y; cbn; try reflexivity. f_equal. lia.
  - reflexivity.
Qed.
Lemma pos_step sel ref g done x rest : d_steps g = done ++ x :: rest ->
  pos_of sel ref g (S (length done)) = oadd (pos_of sel ref g (length done)) (sel x).
Proof.
  intros E. unfold pos_of. rewrite E.
  rewrite firstn_app. replace (S (length done) - length done)%nat with 1%nat by lia. rewrite firstn_all2 by lia.
  rewrite firstn_app, Nat.sub_diag, firstn_all, app_nil_r. cbn [firstn]. rewrite map_app. cbn [map]. rewrite app_comm_cons. apply total_snoc.
Qed.
Lemma pos_zero sel ref g : pos_of sel ref g 0 = ref.
Proof. unfold pos_of. cbn. destruct ref as [v|]; [|reflexivity]. f_equal. lia. Qed.
Lemma lput_mid {A} (v x : A) l r : lput (length l) v (l ++ x :: r) = Some (l ++ v :: r).
Proof. induction l as [|y l IH]; [reflexivity|]. cbn [length app lput]. rewrite IH. reflexivity. Qed.
Lemma pyidx_in n k : 0 <= k < Z.of_nat n -> pyidx n k = Some (Z.to_nat k).
Proof. intros H. unfold pyidx. replace ((0 <=? k) && (k <? Z.of_nat n)) with true by lia. reflexivity. Qed.
Lemma step_len ty x : length (step_bits ty x) = if ty =? 0 then 36%nat else 27%nat.
Proof. destruct x as [[a b] c]. unfold step_bits. rewrite !app_length, !field_length by lia. destruct (ty =? 0); rewrite ?field_length by lia; reflexivity. Qed.

Section G.
Variable g : grid.
Variables (lat lon alt0 : option Z).
Definition pt0 (k : nat) : gpt := GP (d_gid g) (d_ofst g + Z.of_nat k) (pos_of lat_of lat g k) (pos_of lon_of lon g k) (pos_of alt_of alt0 g k).
Definition pt1 (k : nat) : gpt := GP (d_gid g) (match k with O => d_ofst g | S j => Z.of_nat j end) (pos_of lat_of lat g k) (pos_of lon_of lon g k) (Some 0).
Lemma dec_grid0 msg : forall rest done i, d_steps g = done ++ rest ->
  Forall (fun x => let '(a, b, c) := x in fits 13 a /\ fits 14 b /\ (0 = 0 -> fits 9 c)) rest -> At msg i (flat_map (step_bits 0) rest) ->
  grid0 (d_gid g) (d_ofst g) (length rest) (d_ofst g + Z.of_nat (length done))
    (pos_of lat_of lat g (length done)) (pos_of lon_of lon g (length done)) (pos_of alt_of alt0 g (length done)) msg i
    (map pt0 (seq 0 (S (length done)))) (done ++ repeat (Some 0, Some 0, Some 0) (length rest)) =
  Some (map pt0 (seq 0 (S (length (d_steps g)))), d_steps g, (i + length (flat_map (step_bits 0) rest))%nat).
Proof.
  induction rest as [|[[a b] c] rest IH]; intros done i E F A.
  - rewrite app_nil_r in E. subst done. cbn. now rewrite app_nil_r, Nat.add_0_r.
  - apply Forall_cons_iff in F as [(Fa & Fb & Fc) F]. specialize (Fc eq_refl). cbn [flat_map] in *. apply At_app in A as [A A']. rewrite step_len in A'. cbn [Z.eqb] in A'.
    unfold step_bits in A. cbn [Z.eqb] in A. apply At_app in A as [A1 A]. apply At_app in A as [A2 A3]. rewrite ?field_length in * by lia.
    cbn [length grid0]. gv. gv. gv.
    rewrite app_length, repeat_length. replace (d_ofst g + Z.of_nat (length done) - d_ofst g) with (Z.of_nat (length done)) by lia.
    rewrite pyidx_in by lia. cbn [bind repeat]. rewrite Nat2Z.id, lput_mid. cbn [bind].
    specialize (IH (done ++ [(a, b, c)]) (i + 36)%nat). rewrite <- app_assoc in IH. specialize (IH E F A').
    rewrite app_length in IH. cbn [length] in IH. rewrite Nat.add_1_r in IH.
    rewrite !(pos_step _ _ g done (a, b, c) rest E) in IH. cbn [lat_of lon_of alt_of fst snd] in IH.
    rewrite seq_S, map_app in IH. cbn [map Nat.add] in IH. unfold pt0 at 2 in IH.
    rewrite !(pos_step _ _ g done (a, b, c) rest E) in IH. cbn [lat_of lon_of alt_of fst snd] in IH.
    rewrite <- app_assoc in IH. cbn [app] in IH.
    replace (d_ofst g + Z.of_nat (length done) + 1) with (d_ofst g + Z.of_nat (S (length done))) by lia.
    rewrite IH. f_equal. f_equal. rewrite app_length, step_len. cbn [Z.eqb]. lia.
Qed.
Lemma dec_grid1 msg : forall rest done i, d_ofst g = 0 -> d_steps g = done ++ rest ->
  Forall (fun x => let '(a, b, c) := x in fits 13 a /\ fits 14 b /\ (1 = 0 -> fits 9 c)) rest -> At msg i (flat_map (step_bits 1) rest) ->
  grid1 (d_gid g) (d_ofst g) (length rest) (Z.of_nat (length done))
    (pos_of lat_of lat g (length done)) (pos_of lon_of lon g (length done)) msg i
    (map pt1 (seq 0 (S (length done)))) (map (fun x => let '(a, b, c) := x in (a, b, Some 0)) done ++ repeat (Some 0, Some 0, Some 0) (length rest)) =
  Some (map pt1 (seq 0 (S (length (d_steps g)))), map (fun x => let '(a, b, c) := x in (a, b, Some 0)) (d_steps g), (i + length (flat_map (step_bits 1) rest))%nat).
Proof.
  induction rest as [|[[a b] c] rest IH]; intros done i Z0 E F A.
  - rewrite app_nil_r in E. subst done. cbn. now rewrite app_nil_r, Nat.add_0_r.
  - apply Forall_cons_iff in F as [(Fa & Fb & Fc) F]. cbn [flat_map] in *. apply At_app in A as [A A']. rewrite step_len in A'. cbn [Z.eqb] in A'.
    unfold step_bits in A. cbn [Z.eqb] in A. apply At_app in A as [A1 A]. apply At_app in A as [A2 A3]. rewrite ?field_length in * by lia.
    cbn [length grid1]. gv. gv.
    rewrite app_length, map_length, repeat_length. replace (Z.of_nat (length done) - d_ofst g) with (Z.of_nat (length done)) by lia.
    rewrite pyidx_in by lia. cbn [bind repeat]. rewrite Nat2Z.id.
    match goal with |- context [lput (length done) ?v (?l ++ ?x :: ?r)] => replace (length done) with (length l) at 1 by apply map_length end.
    rewrite lput_mid. cbn [bind].
    specialize (IH (done ++ [(a, b, c)]) (i + 27)%nat Z0). rewrite <- app_assoc in IH. specialize (IH E F A').
    rewrite app_length in IH. cbn [length] in IH. rewrite Nat.add_1_r in IH.
    rewrite !(pos_step _ _ g done (a, b, c) rest E) in IH. cbn [lat_of lon_of fst snd] in IH.
    rewrite seq_S, map_app in IH. cbn [map Nat.add] in IH. unfold pt1 at 2 in IH.
    rewrite !(pos_step _ _ g done (a, b, c) rest E) in IH. cbn [lat_of lon_of fst snd] in IH.
    rewrite map_app in IH. cbn [map] in IH. rewrite <- app_assoc in IH. cbn [app] in IH.
    replace (Z.of_nat (length done) + 1) with (Z.of_nat (S (length done))) by lia.
    rewrite IH. f_equal. f_equal. rewrite app_length, step_len. cbn [Z.eqb]. lia.
Qed.
End G.
Lemma mt61 msg w : At msg 24 (bitsof 12 61 ++ w) -> (forall st, decode_mt61 st msg = decode_grid st msg 36) /\ At msg 36 w.
Proof.
  intros A. apply At_app in A as [A1 A2]. rewrite bitsof_length in A2. split; [|exact A2]. intros st. unfold decode_mt61.
  rewrite (getu_bits msg 24 12 61) by (auto; cbn; lia). reflexivity.
Qed.
Lemma dec_type0 g (st : gst) msg : grid_ok 0 g -> At msg 24 (grid_message 0 g) ->
  exists st', decode_mt61 st msg = Some (st', (24 + length (grid_message 0 g))%nat) /\ grid_effect 0 g st' /\ numbered g st' /\ steps_kept 0 g st'.
Proof.
  unfold grid_ok, grid_message, grid_effect. destruct (d_ref g) as [[lat lon] alt] eqn:Er. intros (H1 & H2 & F1 & F2 & H3 & H4 & H5 & F) A.
  destruct (mt61 _ _ A) as [-> A']. clear A. rename A' into A. cbn [Z.eqb] in *.
  do 9 (let K := fresh "A" in apply At_app in A as [K A]). rewrite ?bitsof_length, ?field_length in * by lia. cbn [length] in *.
  unfold decode_grid. gu. gb. gu. gu. cbn [Z.eqb]. gv. gv. gu. gu. gu. rewrite Nat2Z.id.
  pose proof (dec_grid0 g lat lon (Some (alt - 80)) msg (d_steps g) [] (36 + 97)%nat eq_refl F) as D.
  cbn [length app] in D. rewrite !pos_zero, Z.add_0_r in D. cbn [seq map] in D. unfold pt0 at 1 in D. rewrite !pos_zero, Z.add_0_r in D.
  change (36 + 30 + 67)%nat with (36 + 97)%nat. rewrite D by (eapply At_pos; [exact A|lia]). clear D. cbn [bind].
  eexists. split; [f_equal; f_equal; rewrite !app_length, !bitsof_length, !field_length by lia; cbn [length]; rewrite ?app_length, ?bitsof_length, ?field_length by lia; cbn [length]; lia|].
  cbn [gs_pid gs_mi gs_gid gs_inet gs_type gs_ofst gs_pos0 gs_grid gs_dpos].
  set (P := map (pt0 g lat lon (Some (alt - 80))) (seq 1 (length (d_steps g)))).
  assert (N : forall k p, nth_error (map (pt0 g lat lon (Some (alt - 80))) (seq 0 (S (length (d_steps g))))) k = Some p -> p = pt0 g lat lon (Some (alt - 80)) k).
  { intros k p Hk. rewrite nth_error_map in Hk. destruct (nth_error (seq 0 _) k) as [j|] eqn:Ej; [|discriminate]. injection Hk as <-.
    pose proof (nth_error_nth _ _ 0%nat Ej) as X. assert (B : (k < length (seq 0 (S (length (d_steps g)))))%nat) by (apply nth_error_Some; congruence).
    rewrite seq_length in B. rewrite seq_nth in X by exact B. now rewrite <- X. }
  split; [|split].
  - do 7 (split; [reflexivity|]). split; [unfold P; cbn [length]; now rewrite map_length, seq_length|]. intros k p Hk. rewrite (N k p Hk). repeat split.
  - intros k p Hk. rewrite (N k p Hk). reflexivity.
  - unfold steps_kept. cbn [gs_dpos Z.eqb]. symmetry. erewrite map_ext; [apply map_id|]. now intros [[a b] c].
Qed.
Lemma dec_type1 g (st : gst) msg : grid_ok 1 g -> d_ofst g = 0 -> At msg 24 (grid_message 1 g) ->
  exists st', decode_mt61 st msg = Some (st', (24 + length (grid_message 1 g))%nat) /\ grid_effect 1 g st' /\ steps_kept 1 g st' /\
    (forall k p, nth_error (gs_grid st') k = Some p -> gp_id p = match k with O => 0 | S j => Z.of_nat j end).
Proof.
  unfold grid_ok, grid_message, grid_effect. destruct (d_ref g) as [[lat lon] alt] eqn:Er. intros (H1 & H2 & F1 & F2 & H3 & H4 & H5 & F) Z0 A.
  destruct (mt61 _ _ A) as [-> A']. clear A. rename A' into A. cbn [Z.eqb] in *.
  do 9 (let K := fresh "A" in apply At_app in A as [K A]). rewrite ?bitsof_length, ?field_length in * by lia. cbn [length] in *.
  unfold decode_grid. gu. gb. gu. gu. cbn [Z.eqb Pos.eqb]. gv. gv. gu. gu. rewrite Nat2Z.id.
  pose proof (dec_grid1 g lat lon msg (d_steps g) [] (36 + 87)%nat Z0 eq_refl F) as D.
  cbn [length app] in D. rewrite !pos_zero in D. cbn [seq map] in D. unfold pt1 at 1 in D. rewrite !pos_zero in D.
  change (36 + 30 + 57)%nat with (36 + 87)%nat. change (Z.of_nat 0) with 0 in D. cbn [app] in D. rewrite D by (eapply At_pos; [exact A|lia]). clear D. cbn [bind].
  eexists. split; [f_equal; f_equal; rewrite !app_length, !bitsof_length, !field_length by lia; cbn [length]; rewrite ?app_length, ?bitsof_length, ?field_length by lia; cbn [length]; lia|].
  cbn [gs_pid gs_mi gs_gid gs_inet gs_type gs_ofst gs_pos0 gs_grid gs_dpos].
  set (P := map (pt1 g lat lon) (seq 1 (length (d_steps g)))).
  assert (N : forall k p, nth_error (map (pt1 g lat lon) (seq 0 (S (length (d_steps g))))) k = Some p -> p = pt1 g lat lon k).
  { intros k p Hk. rewrite nth_error_map in Hk. destruct (nth_error (seq 0 _) k) as [j|] eqn:Ej; [|discriminate]. injection Hk as <-.
    pose proof (nth_error_nth _ _ 0%nat Ej) as X. assert (B : (k < length (seq 0 (S (length (d_steps g)))))%nat) by (apply nth_error_Some; congruence).
    rewrite seq_length in B. rewrite seq_nth in X by exact B. now rewrite <- X. }
  split; [|split].
  - do 7 (split; [reflexivity|]). split; [unfold P; cbn [length]; now rewrite map_length, seq_length|]. intros k p Hk. rewrite (N k p Hk). repeat split.
  - reflexivity.
  - intros k p Hk. rewrite (N k p Hk). cbn [gp_id pt1]. destruct k; [exact Z0|reflexivity].
Qed.
