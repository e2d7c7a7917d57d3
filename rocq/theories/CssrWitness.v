(** Concrete compact-SSR messages: instances for the theorems and witnesses for refuted claims. *)
From Verif Require Import Base SatModel SatSpec CssrModel CssrSpec CssrStream CssrStatus CssrUser CssrValid.
Open Scope Z_scope.

(** positions of a mask given by their list *)
Definition mk (n : nat) (l : list Z) : bits := map (fun k => existsb (Z.eqb (Z.of_nat k)) l) (seq 0 n).
Definition ex_h (t iod : Z) : mh := MH t 3 0 iod.
(** GPS 2 and 5 with signals 0 and 5; Galileo 11 with signals 1, 4 and a cell mask *)
Definition ex_bl : list gblk :=
  [GB 0 (mk 40 [1; 4]) (mk 16 [0; 5]) None 0; GB 2 (mk 40 [10]) (mk 16 [1; 4]) (Some [[true; false]]) 0].
Definition ex_its : list item := concat (map blk_items ex_bl).
Definition ex_mask := CMask (ex_h 361800 5) ex_bl.
Definition ex_orb := COrb (ex_h 30 5) [OV 77 100 (-200) 300; OV 12 (-1) 2 (-3); OV 1000 7 8 (-4096)].
Definition ex_clk := CClk (ex_h 30 5) [] [55; -66; -16384].
Definition ex_cb := CCb (ex_h 30 5) [[1; 2]; [-3; 4]; [-1024]].
Definition ex_pb := CPb (ex_h 30 5) [[(1, 0); (2, 1)]; [(-3, 2); (4, 3)]; [(5, 0)]].
Definition ex_ura := CUra (ex_h 30 5) [(1, 2); (3, 4); (7, 7)].
Definition ex_comb := CComb (ex_h 30 5) true true (Some (7, [true; false; true])) [(OV 77 1 2 3, 9); (OV 600 4 5 6, -9)].
Definition ex_stec := CStec (ex_h 30 5) 1 7 [true; true; false] [((1, 2), CF 5 6 7 0 0 0); ((3, 4), CF (-5) (-6) (-7) 0 0 0)].
Definition ex_grid := CGrid (ex_h 30 5) 1 0 7 [true; true; false] (5, 6) [((1, 2), [3; 4]); ((5, 6), [7; -64])].
Definition ex_atmos := CAtmos (ex_h 30 5) 7 2 (5, 6) (Some (TF 1 17 3 (-3) 0)) (Some (TR 0 9 [31; -32])) 3 [false; true; true]
  [SV (1, 2) 1 (CF 100 (-20) 30 0 0 0) 0 [3; -8]; SV (3, 4) 0 (CF 1 0 0 0 0 0) 3 [60; -60]].
Definition ex_all := [ex_mask; ex_orb; ex_clk; ex_cb; ex_pb; ex_ura; ex_stec; ex_grid].
Definition ex_s0 := fresh 2200 false (Some [7]) 7.
(** state after the mask *)
Definition ex_s1 := mask_eff clas_cfg (ex_h 361800 5) ex_bl ex_s0.



Ltac ev l := let l' := eval vm_compute in l in change l with l'.
Ltac wfs := cbv beta; lazymatch goal with
  | |- ?a /\ ?b => split; wfs
  | |- True => exact I
  | |- wf_stream _ _ _ _ => cbn [wf_stream ex_all]; wfs
  | |- wf_msg _ _ _ ?m => let m' := eval hnf in m in change m with m'; cbn [wf_msg]; wfs
  | |- wf_mh _ _ _ => unfold wf_mh; wfs
  | |- wf_blk _ => unfold wf_blk; wfs
  | |- wf_net _ _ _ => unfold wf_net; wfs
  | |- wf_orb _ _ _ => unfold wf_orb; wfs
  | |- wf_q _ => unfold wf_q; wfs
  | |- wf_coef _ => unfold wf_coef; wfs
  | |- wf_tropfn _ => unfold wf_tropfn; wfs
  | |- ub _ _ => unfold ub; wfs
  | |- sb _ _ => unfold sb; wfs
  | |- Forall _ ?l => ev l; repeat (apply Forall_cons; [wfs|]); apply Forall_nil
  | |- Forall2 _ ?l ?r => ev l; ev r; repeat (apply Forall2_cons; [wfs|]); apply Forall2_nil
  | |- NoDup ?l => ev l; repeat constructor; cbn; intuition discriminate
  | |- match ?x with _ => _ end => let x' := eval hnf in x in change x with x'; cbv match beta; wfs
  | |- if ?x then _ else _ => let x' := eval vm_compute in x in change x with x'; cbv match beta; wfs
  | |- (_ <= _)%Z => vm_compute; discriminate
  | |- (_ < _)%Z => vm_compute; reflexivity
  | |- (_ <= _)%nat => apply Nat.leb_le; vm_compute; reflexivity
  | |- (_ < _)%nat => apply Nat.ltb_lt; vm_compute; reflexivity
  | |- _ <> _ => vm_compute; discriminate
  | |- _ -> exists g, s_grid _ = Some g /\ _ => intros _; eexists; split; [vm_compute; reflexivity|cbn; auto]
  | |- _ \/ _ => first [left; now wfs | right; now wfs]
  | |- _ = _ => vm_compute; reflexivity
  end.
Lemma ex_wf : wf_stream clas_cfg [] ex_all ex_s0.
Proof. wfs. Qed.

(** what follows the message in the buffer *)
Definition tail16 : bits := bitsof 12 0 ++ bitsof 4 0.
Definition mask_bits_of (bl : list gblk) : bits := enc_body clas_cfg [] (CMask (ex_h 361800 5) bl) ++ tail16.
Definition after_mask (bl : list gblk) : cst * option (option nat) := decode_cssr_mask clas_cfg (mask_bits_of bl) 0 ex_s0.

(** SBAS satellite 120 is announced, another one is stored *)
Definition sbas_bl : list gblk := [GB 5 (mk 40 [0]) (mk 16 []) None 0].
Lemma sbas_mask_wrong : exists h bl s' n,
  wf_mh clas_cfg true h /\ Forall wf_blk bl /\ Forall (fun p => owns (fst p) (snd p)) (concat (map icd_sats bl)) /\
  concat (map icd_sats bl) = [(SBS, 120)] /\
  decode_cssr_mask clas_cfg (enc_body clas_cfg [] (CMask h bl)) 0 ex_s0 = (s', Some (Some n)) /\
  map sat2prn (s_sat_n s') <> concat (map icd_sats bl).
Proof.
  exists (ex_h 361800 5), sbas_bl.
  eexists. eexists. split; [wfs|]. split; [wfs|]. split; [vm_compute; repeat constructor; discriminate|].
  split; [vm_compute; reflexivity|]. split; [vm_compute; reflexivity|]. vm_compute. discriminate.
Qed.
(** NavIC (constellation 6) with one signal: KeyError *)
Lemma navic_mask_raises : exists h bl s',
  wf_mh clas_cfg true h /\ Forall (fun b => length (gb_sv b) = 40%nat /\ length (gb_sig b) = 16%nat /\ gb_id b = 6) bl /\
  decode_cssr_mask clas_cfg (enc_body clas_cfg [] (CMask h bl) ++ tail16) 0 ex_s0 = (s', None).
Proof.
  exists (ex_h 361800 5), [GB 6 (mk 40 [0]) (mk 16 [1]) None 0]. eexists. split; [wfs|].
  split; [wfs|]. vm_compute. reflexivity.
Qed.
(** QZSS signals 0 and 2 have one key: the first satellite's first bias is lost *)
Definition qzs_bl : list gblk := [GB 4 (mk 40 [0]) (mk 16 [0; 2]) None 0].
Lemma qzs_bias_lost : exists its s h v s' n it l r x,
  ctx its s /\ wf_msg clas_cfg its s (CCb h v) /\
  decode_cssr_cbias clas_cfg (enc_body clas_cfg its (CCb h v)) 0 s = (s', Some (Some n)) /\
  nth_error its 0 = Some it /\ nth_error v 0 = Some l /\ nth_error (i_sig it) 0 = Some r /\ nth_error l 0 = Some x /\
  cbias_of s' 0 (i_sat it) (toTyp r TC) <> Some (c_sval clas_cfg x (b_cb clas_cfg)).
Proof.
  exists (concat (map blk_items qzs_bl)), (mask_eff clas_cfg (ex_h 361800 5) qzs_bl ex_s0), (ex_h 30 5), [[5; 9]].
  do 6 eexists.
  split; [vm_compute; repeat constructor|]. split; [wfs|]. split; [vm_compute; reflexivity|].
  split; [vm_compute; reflexivity|]. split; [reflexivity|]. split; [vm_compute; reflexivity|]. split; [reflexivity|].
  vm_compute. discriminate.
Qed.
(** code and phase bias message without network: UnboundLocalError *)
Lemma bias_no_network_raises : exists its s s', ctx its s /\ its <> [] /\
  decode_cssr_bias clas_cfg (enc_mh clas_cfg false (ex_h 30 5) ++ [true; true; false] ++ repeat false 400) 0 s = (s', None).
Proof.
  exists ex_its, ex_s1. eexists. split; [vm_compute; repeat constructor|]. split; [vm_compute; discriminate|].
  vm_compute. reflexivity.
Qed.
(** a receiver that has decoded a mask and an orbit message but no clock message *)
Lemma validity_raises : exists ms msg tm_ s',
  wf_stream clas_cfg [] ms ex_s0 /\ msg = enc_stream clas_cfg [] ms ++ tail16 /\
  snd (decode_cssr clas_cfg msg 0 ex_s0) = ROther /\
  check_validity 1 30 120 tm_ (fst (decode_cssr clas_cfg msg 0 ex_s0)) = (s', None).
Proof.
  exists [ex_mask]. eexists. exists (GT 0 0). eexists. split; [wfs|]. split; [reflexivity|].
  split; vm_compute; reflexivity.
Qed.
(** the satellite has an orbit, but its clock correction was never received: TypeError *)
Lemma validity_raises_no_clock : exists ms msg tm_ s',
  wf_stream clas_cfg [] ms ex_s0 /\ received ms 0 1 /\ msg = enc_stream clas_cfg [] ms ++ tail16 /\
  snd (decode_cssr clas_cfg msg 0 ex_s0) = ROther /\
  check_validity 1 30 120 tm_ (fst (decode_cssr clas_cfg msg 0 ex_s0)) = (s', None).
Proof.
  exists [ex_mask; ex_orb]. eexists. exists (GT 100000000000 0). eexists. split; [wfs|].
  split; [exists ex_orb; split; [cbn; auto|reflexivity]|]. split; [reflexivity|].
  split; vm_compute; reflexivity.
Qed.
(** every global correction received, no local network selected: not complete *)
Lemma no_network_incomplete : exists ms,
  let s := fresh 2200 false (Some [7]) (-1) in
  wf_stream clas_cfg [] ms s /\ (forall b, In b [0; 1; 2; 3] -> received ms 0 b) /\
  chk_stat (fst (decode_cssr clas_cfg (enc_stream clas_cfg [] ms ++ tail16) 0 s)) = false.
Proof.
  exists ex_all. cbv zeta. split; [wfs|]. split.
  - intros b [<-|[<-|[<-|[<-|[]]]]];
      [exists ex_mask|exists ex_orb|exists ex_clk|exists ex_cb]; (split; [cbn; tauto|reflexivity]).
  - vm_compute. reflexivity.
Qed.
