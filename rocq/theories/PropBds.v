(** C44 (BDS PPP-B2b part): corrections are stored only under the issues of the current mask and for the announced satellites. *)
From Coq Require Import ZArith List.
From Verif Require Import SatModel CssrState CssrSpec BdsModel BdsSpec BdsProofs BdsBias.
Import ListNotations.
Notation length := List.length.
Open Scope Z_scope.

Theorem C44_b2b_mask : forall tod res ssr iodp m rest s, mask_ok m -> U 2 ssr -> U 4 iodp -> iodp <> b_iodp_p s ->
  exists s', decode_b2b (mask_msg tod res ssr iodp m rest) s = Some s' /\
    mask_part s' = (ssr, iodp, iodp, sats (slots m)) /\ NoDup (b_sat_n s') /\ valid s' /\
    (forall a, orbit s' a = None /\ clock s' a = None /\ clock_p s' a = None /\ zget a (b_ura s') = None /\ forall k, bias s' a k = None).
Proof. exact b2b_mask. Qed.
Print Assumptions C44_b2b_mask.
Theorem C44_b2b_same_mask : forall tod res ssr m rest s, mask_ok m -> U 2 ssr -> U 4 (b_iodp s) -> b_iodp_p s = b_iodp s ->
  decode_b2b (mask_msg tod res ssr (b_iodp s) m rest) s = Some (set_b_ssr ssr s).
Proof. exact mask_same. Qed.
Print Assumptions C44_b2b_same_mask.
Theorem C44_b2b_refused : forall mt tod res ssr rest s, 2 <= mt <= 5 -> U 2 ssr -> ssr <> b_iodssr s ->
  decode_b2b (enc (b2b_hd mt tod res ssr) ++ rest) s = Some s.
Proof. exact b2b_refused. Qed.
Print Assumptions C44_b2b_refused.
Theorem C44_b2b_clock_refused : forall tod res iodp st rest s, U 2 (b_iodssr s) -> U 4 iodp -> iodp <> b_iodp s ->
  decode_b2b (enc (b2b_hd 4 tod res (b_iodssr s) ++ [4 # iodp; 5 # st]) ++ rest) s = Some s.
Proof. exact b2b_clock_refused. Qed.
Print Assumptions C44_b2b_clock_refused.
Theorem C44_b2b_clock : forall tod res st l rest s, valid s -> NoDup (b_sat_n s) -> U 2 (b_iodssr s) -> U 4 (b_iodp s) -> U 5 st -> clk_ok l ->
  exists s', decode_b2b (clk_msg tod res (b_iodssr s) (b_iodp s) st l rest) s = Some s' /\
    (forall j a, nth_error (b_sat_n s) j = Some a ->
       match entry l (23 * Z.to_nat st) j with
       | Some c => clock s' a = Some (fst c, neg (code 15 (snd c))) /\ clock_p s' a = cp_after (clock s a) (clock s' a) (clock_p s a)
       | None => clock s' a = clock s a /\ clock_p s' a = clock_p s a end) /\
    (forall a, ~ In a (b_sat_n s) -> clock s' a = clock s a /\ clock_p s' a = clock_p s a) /\
    mask_part s' = mask_part s /\ orb_part s' = orb_part s /\ b_ura s' = b_ura s /\ b_cbias s' = b_cbias s.
Proof. exact b2b_clock. Qed.
Print Assumptions C44_b2b_clock.
Theorem C44_b2b_orbit : forall tod res l rest s, valid s -> U 2 (b_iodssr s) -> length l = 6%nat -> Forall oent_ok l ->
  exists s', decode_b2b (orb_msg tod res (b_iodssr s) l rest) s = Some s' /\
    (forall a, In a (b_sat_n s) -> orbit s' a = match last_orb a l with Some e => Some (oval e) | None => orbit s a end) /\
    (forall a, ~ In a (b_sat_n s) -> orbit s' a = orbit s a) /\
    mask_part s' = mask_part s /\ clk_part s' = clk_part s /\ b_cbias s' = b_cbias s.
Proof. exact b2b_orbit. Qed.
Print Assumptions C44_b2b_orbit.
(** for every IODP, though only the current one should be accepted: see C44_b2b_ura_refuted *)
Theorem C44_b2b_ura_partial : forall tod res iodp st l rest s, NoDup (b_sat_n s) -> U 2 (b_iodssr s) -> U 4 iodp -> U 3 st -> ura_ok l ->
  exists s', decode_b2b (ura_msg tod res (b_iodssr s) iodp st l rest) s = Some s' /\
    (forall j a, nth_error (b_sat_n s) j = Some a ->
       zget a (b_ura s') = match entry l (70 * Z.to_nat st) j with Some c => Some c | None => zget a (b_ura s) end) /\
    (forall a, ~ In a (b_sat_n s) -> zget a (b_ura s') = zget a (b_ura s)) /\
    mask_part s' = mask_part s /\ orb_part s' = orb_part s /\ clk_part s' = clk_part s /\ b_cbias s' = b_cbias s.
Proof. exact b2b_ura. Qed.
Print Assumptions C44_b2b_ura_partial.
(** only when every satellite of the message is in the mask: see C44_b2b_bias_refuted *)
Theorem C44_b2b_bias_partial : forall tod res l rest s, U 2 (b_iodssr s) -> (length l <= 31)%nat -> Forall cent_ok l ->
  Forall (fun e => Forall (fun p => sig_ok (c_slot e) (fst p)) (c_sigs e)) l -> Forall (in_mask s) l ->
  exists s', decode_b2b (cb_msg tod res (b_iodssr s) l rest) s = Some s' /\
    (forall a k, bias s' a k = match last_cb a l with Some e => last_bias k (c_sigs e) | None => bias s a k end) /\
    mask_part s' = mask_part s /\ orb_part s' = orb_part s /\ clk_part s' = clk_part s /\ b_ura s' = b_ura s.
Proof. exact b2b_bias. Qed.
Print Assumptions C44_b2b_bias_partial.
(** only mask messages change the mask, whatever the bits of the message *)
Theorem C44_b2b_mask_kept : forall msg s s', decode_b2b msg s = Some s' -> getu msg 0 6 <> Some 1 -> mask_part s' = mask_part s.
Proof. intros msg s s' H N. exact (proj1 (b2b_kept msg s s' H N)). Qed.
Print Assumptions C44_b2b_mask_kept.
(** [valid] holds initially and along every history of messages *)
Theorem C44_b2b_valid : forall msgs s s', valid s -> mfold decode_b2b msgs s = Some s' -> valid s'.
Proof.
  induction msgs as [|m r IH]; intros s s' V H; cbn [mfold] in H.
  - injection H as <-. exact V.
  - destruct (decode_b2b m s) as [t|] eqn:E; cbn [bind] in H; [|discriminate]. eapply IH; [|exact H]. eapply b2b_valid; eassumption.
Qed.
Print Assumptions C44_b2b_valid.
Example C44_b2b_valid_new : valid bds_new.
Proof. split; [constructor|]. split; [intros a H; now destruct H|reflexivity]. Qed.

(* ---------- disagreements ---------- *)
Definition m63 : bits := repeat true 63 ++ repeat false 111.
Definition s63 : bst := match decode_b2b (mask_msg 0 0 1 2 m63 []) bds_new with Some s => s | None => bds_new end.
(** combined message: applied under another issue of the mask *)
Theorem C44_b2b_combined_refuted : exists s s' iodp a, valid s /\ iodp <> b_iodp s /\
  decode_b2b (comb1_msg 0 0 1 iodp 0 [(3, 100)] 0 0 1 [] (repeat false 100)) s = Some s' /\ clock s a = None /\ clock s' a <> None.
Proof.
  exists s63. eexists. exists 5, (prn2sat BDS 43). split; [|split; [vm_compute; discriminate|split; [vm_compute; reflexivity|split; [reflexivity|vm_compute; discriminate]]]].
  eapply b2b_valid with (msg := mask_msg 0 0 1 2 m63 []); [exact C44_b2b_valid_new|vm_compute; reflexivity].
Qed.
Print Assumptions C44_b2b_combined_refuted.
(** combined message under the current issues: the announced satellite gets nothing *)
Theorem C44_b2b_combined_lost_refuted : exists s s' a, valid s /\ nth_error (b_sat_n s) 0 = Some a /\
  decode_b2b (comb1_msg 0 0 (b_iodssr s) (b_iodp s) 0 [(3, 100)] 0 0 1 [] (repeat false 100)) s = Some s' /\ clock s' a = None.
Proof.
  exists s63. eexists. eexists. split; [|split; [vm_compute; reflexivity|split; vm_compute; reflexivity]].
  eapply b2b_valid with (msg := mask_msg 0 0 1 2 m63 []); [exact C44_b2b_valid_new|vm_compute; reflexivity].
Qed.
Print Assumptions C44_b2b_combined_lost_refuted.
(** combined message of the second kind: an exception for every clock correction *)
Theorem C44_b2b_combined2_refuted : exists s, valid s /\
  decode_b2b (comb2_msg 0 0 (b_iodssr s) [(1, 3, 100)] (repeat false 100)) s = None.
Proof.
  exists s63. split; [|vm_compute; reflexivity].
  eapply b2b_valid with (msg := mask_msg 0 0 1 2 m63 []); [exact C44_b2b_valid_new|vm_compute; reflexivity].
Qed.
Print Assumptions C44_b2b_combined2_refuted.
(** accuracy indicators of another issue of the mask are stored *)
Theorem C44_b2b_ura_refuted : exists s s' iodp l a, valid s /\ ura_ok l /\ iodp <> b_iodp s /\
  decode_b2b (ura_msg 0 0 (b_iodssr s) iodp 0 l []) s = Some s' /\ zget a (b_ura s') <> zget a (b_ura s).
Proof.
  exists s63. eexists. exists 5, (repeat (1, 2) 70), (prn2sat BDS 1). split; [|split; [|split; [vm_compute; discriminate|split; [vm_compute; reflexivity|vm_compute; discriminate]]]].
  - eapply b2b_valid with (msg := mask_msg 0 0 1 2 m63 []); [exact C44_b2b_valid_new|vm_compute; reflexivity].
  - split; [reflexivity|]. apply Forall_forall. intros x Hx. apply repeat_spec in Hx. subst x. unfold U. cbn. repeat split; discriminate.
Qed.
Print Assumptions C44_b2b_ura_refuted.
(** code biases: a satellite outside the mask makes the decoder misread the next one *)
Theorem C44_b2b_bias_refuted : exists s s' l a e, valid s /\ Forall cent_ok l /\ In a (b_sat_n s) /\
  decode_b2b (cb_msg 0 0 (b_iodssr s) l (repeat false 100)) s = Some s' /\ last_cb a l = Some e /\ bias s' a 0 <> last_bias 0 (c_sigs e).
Proof.
  exists s63. eexists. exists [CE 64 [(0, 7)]; CE 1 [(0, 9)]], (prn2sat BDS 1), (CE 1 [(0, 9)]).
  split; [|split; [|split; [|split; [vm_compute; reflexivity|split; [reflexivity|vm_compute; discriminate]]]]].
  - eapply b2b_valid with (msg := mask_msg 0 0 1 2 m63 []); [exact C44_b2b_valid_new|vm_compute; reflexivity].
  - repeat (constructor; [split; [unfold slot_ok; cbn; lia|split; [cbn; lia|repeat (constructor; [unfold U, S_; cbn; lia|])]; constructor]|]); constructor.
  - vm_compute. tauto.
Qed.
Print Assumptions C44_b2b_bias_refuted.
(** a reserved mask bit names a satellite of another constellation: the mask announces one satellite twice *)
Theorem C44_b2b_reserved_refuted : exists m s', length m = 174%nat /\ decode_b2b (mask_msg 0 0 1 2 m []) bds_new = Some s' /\ ~ NoDup (b_sat_n s').
Proof.
  exists (repeat false 95 ++ [true] ++ repeat false 4 ++ [true] ++ repeat false 73). eexists. split; [reflexivity|]. split; [vm_compute; reflexivity|].
  cbn. intros N. inversion N as [|? ? H _]; subst. apply H. now left.
Qed.
Print Assumptions C44_b2b_reserved_refuted.

(* ---------- a concrete history ---------- *)
Definition m5 : bits := [true; false; true] ++ repeat false 60 ++ [true] ++ repeat false 36 ++ [true] ++ repeat false 36 ++ [true] ++ repeat false 36.
Definition ex_hist : list bits :=
  [ mask_msg 100 0 2 7 m5 [];
    orb_msg 110 0 2 [OE 3 300 4 (-100) 200 (-4096) 1 2; OE 64 77 1 5 6 7 0 3; OE 0 0 0 0 0 0 0 0; OE 101 900 2 1 1 1 0 0; OE 2 1 1 1 1 1 1 1; OE 511 0 0 0 0 0 0 0] (repeat false 19);
    clk_msg 120 0 2 7 0 ([(4, 1000); (4, -16384); (1, -3)] ++ repeat (0, 0) 20) (repeat false 10);
    clk_msg 121 0 2 6 0 (repeat (5, 5) 23) (repeat false 10);
    clk_msg 122 0 3 7 0 (repeat (5, 5) 23) (repeat false 10);
    cb_msg 130 0 2 [CE 1 [(0, 12); (12, -2047)]; CE 64 [(13, 4)]] (repeat false 300);
    clk_msg 140 0 2 7 0 ([(5, 1001); (4, 8)] ++ repeat (0, 0) 21) (repeat false 10) ].
Example C44_b2b_example : exists s, mfold decode_b2b ex_hist bds_new = Some s /\
  b_sat_n s = [prn2sat BDS 1; prn2sat BDS 3; prn2sat GPS 1; prn2sat GAL 1; prn2sat GLO 1] /\
  orbit s (prn2sat BDS 3) = Some (44, 4, (Some (-100), Some 200, None), (1, 2)) /\
  orbit s (prn2sat GPS 1) = Some (77, 1, (Some 5, Some 6, Some 7), (0, 3)) /\
  orbit s (prn2sat GAL 1) = Some (900, 2, (Some 1, Some 1, Some 1), (0, 0)) /\
  orbit s (prn2sat BDS 2) = None /\
  clock s (prn2sat BDS 1) = Some (5, Some (-1001)) /\ clock_p s (prn2sat BDS 1) = Some (4, Some (-1000)) /\
  clock s (prn2sat BDS 3) = Some (4, Some (-8)) /\ clock_p s (prn2sat BDS 3) = None /\
  bias s (prn2sat BDS 1) 12 = Some None /\ bias s (prn2sat GPS 1) 13 = Some (Some 4).
Proof. eexists. split; [vm_compute; reflexivity|]. repeat split. Qed.
