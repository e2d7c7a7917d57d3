(** C100. *)
From Verif Require Import VtecModel CssrFacts RtcmFrame RtcmFrameProofs RtcmSsrProofs Base BaseFacts.
Notation length := List.length.
Open Scope Z_scope.

(** a layer: height, degree, order, cosine and sine coefficients in steps of 0.005 TECU *)
Record layer := LY { y_h : Z; y_n : Z; y_m : Z; y_c : list Z; y_s : list Z }.
Record vtec := VT { v_ver : Z; v_tow : Z; v_udi : Z; v_mi : bool; v_iod : Z; v_pid : Z; v_sid : Z; v_qi : Z; v_layers : list layer }.
Definition layer_bits (y : layer) : bits := bitsof 8 (y_h y) ++ bitsof 4 (y_n y) ++ bitsof 4 (y_m y) ++ flat_map (bitsof 16) (y_c y) ++ flat_map (bitsof 16) (y_s y).
(** the number of layers, degree and order are the numbers in their fields, as the decoder takes them *)
Definition vtec_message (v : vtec) : bits :=
  bitsof 12 4076 ++ bitsof 3 (v_ver v) ++ bitsof 8 201 ++ bitsof 20 (v_tow v) ++ bitsof 4 (v_udi v) ++ [v_mi v] ++ bitsof 4 (v_iod v) ++ bitsof 16 (v_pid v) ++
  bitsof 4 (v_sid v) ++ bitsof 9 (v_qi v) ++ bitsof 2 (Z.of_nat (length (v_layers v))) ++ flat_map layer_bits (v_layers v).

(** full statement: for all layers the position reached is the end of the message and the coefficients are kept; every message with a layer is an error *)
Theorem C100_layer_error : forall v msg, v_layers v <> [] -> (length (v_layers v) < 4)%nat -> At msg 24 (vtec_message v) -> decode_mt4076_201 msg = None.
Proof.
  intros v msg Hn Hl A. unfold vtec_message in A. do 11 (let K := fresh "A" in apply At_app in A as [K A]). rewrite ?bitsof_length in *. cbn [length] in *.
  unfold decode_mt4076_201. rewrite (getu_bits msg 24 12 4076) by (auto; cbn; lia). cbn [bind]. change (dispatch 4076) with KIgs. cbv iota.
  rewrite (getu_bits msg 39 8 201) by first [(eapply At_pos; [eassumption|lia]) | cbn; lia]. cbn [bind]. change (201 =? 201) with true. cbv iota.
  unfold decode_vtec. repeat (match goal with |- context [bind (getu msg ?j ?n) _] => destruct (getu msg j n) eqn:?; [|reflexivity] | |- context [bind (getb msg ?j ?n) _] => destruct (getb msg j n) eqn:?; [|reflexivity] end; cbn [bind]).
  match goal with E : getu msg (47 + 58) 2 = Some ?z |- _ => rewrite (getu_bits msg (47 + 58) 2 (Z.of_nat (length (v_layers v)))) in E by first [(eapply At_pos; [eassumption|lia]) | cbn; lia]; injection E as <- end.
  rewrite Nat2Z.id. destruct (v_layers v) as [|y l]; [congruence|]. cbn [length layers].
  repeat (match goal with |- context [bind (getu msg ?j ?n) _] => destruct (getu msg j n) eqn:?; [|reflexivity] end; cbn [bind]).
  match goal with |- context [count 0 ?a ?b] => assert (C : (0 < count 0 a b)%nat) by (unfold count; replace (b + 1 - 0)%nat with (S b) by lia; cbn [seq map fold_right]; lia);
    destruct (count 0 a b) as [|c]; [lia|] end.
  cbn [coefs]. match goal with |- context [gets ?a ?b ?d] => destruct (gets a b d); reflexivity end.
Qed.
Print Assumptions C100_layer_error.
(** a message without layers is read to its end *)
Theorem C100_no_layers_partial : forall v msg, v_layers v = [] -> At msg 24 (vtec_message v) -> decode_mt4076_201 msg = Some (24 + length (vtec_message v))%nat.
Proof.
  intros v msg Hn A. pose proof (At_bound _ _ _ A) as B. unfold vtec_message in *. rewrite Hn in *. cbn [flat_map] in *. rewrite app_nil_r in *.
  do 10 (let K := fresh "A" in apply At_app in A as [K A]). rewrite ?app_length, ?bitsof_length in *. cbn [length] in *.
  unfold decode_mt4076_201. rewrite (getu_bits msg 24 12 4076) by (auto; cbn; lia). cbn [bind]. change (dispatch 4076) with KIgs. cbv iota.
  rewrite (getu_bits msg 39 8 201) by first [(eapply At_pos; [eassumption|lia]) | cbn; lia]. cbn [bind]. change (201 =? 201) with true. cbv iota.
  unfold decode_vtec, getb. rewrite (getu_bits msg (47 + 58) 2 0) by first [(eapply At_pos; [eassumption|lia]) | cbn; lia].
  repeat (match goal with |- context [getu msg ?j ?n] => let E := fresh "E" in destruct (getu_some msg j n) as [? E]; [lia|rewrite E; clear E] end; cbn [bind]).
  reflexivity.
Qed.
Print Assumptions C100_no_layers_partial.
Definition c100_v : vtec := VT 1 345600 5 false 3 777 2 10 [LY 45 1 1 [100; 200; 300] [400]].
Theorem C100_refuted : exists v msg, v_layers v <> [] /\ At msg 24 (vtec_message v) /\ decode_mt4076_201 msg = None.
Proof.
  exists c100_v, (repeat true 24 ++ vtec_message c100_v). split; [discriminate|]. split; [|vm_compute; reflexivity].
  exists (repeat true 24), []. split; [now rewrite app_nil_r|reflexivity].
Qed.
Print Assumptions C100_refuted.
(** without layers the message is read to its end *)
Example C100_case : decode_mt4076_201 (repeat true 24 ++ vtec_message (VT 1 345600 5 false 3 777 2 10 [])) = Some 107%nat /\ length (vtec_message c100_v) = 163%nat.
Proof. vm_compute. auto. Qed.
