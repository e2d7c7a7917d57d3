(** Properties C18, C19, C20, C22, C23: compact-SSR decoding (cssrlib.py). *)
From Verif Require Import Base SatModel SatSpec CssrModel CssrSpec CssrFacts CssrCodec CssrMask CssrStream CssrStatus CssrUser CssrValid CssrAtmo CssrWitness.
Open Scope Z_scope.

(** C18. [concat (map icd_sats bl)] is the transmitted satellite list (constellation, PRN) in mask order
    and [concat (map icd_sigs bl)] the enabled signals of each; the message is followed by anything. *)
Theorem C18_mask_partial : forall c msg its h bl i s,
  wf_mh c true h -> (length bl < 16)%nat -> Forall wf_blk bl -> Forall supported bl ->
  Forall (fun p => owns (fst p) (snd p)) (concat (map icd_sats bl)) -> NoDup (concat (map icd_sats bl)) ->
  At msg i (enc_body c its (CMask h bl)) ->
  exists s', decode_cssr_mask c msg i s = (s', Some (Some (i + length (enc_body c its (CMask h bl)))%nat)) /\
    map sat2prn (s_sat_n s') = concat (map icd_sats bl) /\ NoDup (s_sat_n s') /\
    s_nsat_n s' = length (concat (map icd_sats bl)) /\
    s_nsig_n s' = map (@length rsig) (concat (map icd_sigs bl)) /\
    map (fun sat => zget sat (s_sig_n s')) (s_sat_n s') = map Some (concat (map icd_sigs bl)) /\
    s_iodssr s' = hd_iod c h s /\ ctx (concat (map blk_items bl)) s'.
Proof. exact mask_user. Qed.
Print Assumptions C18_mask_partial.
Example C18_case :
  (wf_mh clas_cfg true (ex_h 361800 5) /\ Forall wf_blk ex_bl) /\
  Forall (fun p => owns (fst p) (snd p)) (concat (map icd_sats ex_bl)) /\
  concat (map icd_sats ex_bl) = [(GPS, 2); (GPS, 5); (GAL, 11)] /\
  map sat2prn (s_sat_n (fst (after_mask ex_bl))) = [(GPS, 2); (GPS, 5); (GAL, 11)] /\
  s_nsig_n (fst (after_mask ex_bl)) = [2; 2; 1]%nat.
Proof. split; [wfs|]. split; [vm_compute; repeat constructor; discriminate|]. repeat split; vm_compute; reflexivity. Qed.

(** C18 is false for SBAS (constellation 5): the satellite announced is not the one stored *)
Theorem C18_sbas_refuted : exists h bl s' n,
  wf_mh clas_cfg true h /\ Forall wf_blk bl /\ Forall (fun p => owns (fst p) (snd p)) (concat (map icd_sats bl)) /\
  concat (map icd_sats bl) = [(SBS, 120)] /\
  decode_cssr_mask clas_cfg (enc_body clas_cfg [] (CMask h bl)) 0 ex_s0 = (s', Some (Some n)) /\
  map sat2prn (s_sat_n s') <> concat (map icd_sats bl).
Proof. exact sbas_mask_wrong. Qed.
Print Assumptions C18_sbas_refuted.
(** C18 is false for NavIC (constellation 6): decoding raises *)
Theorem C18_navic_refuted : exists h bl s',
  wf_mh clas_cfg true h /\ Forall (fun b => length (gb_sv b) = 40%nat /\ length (gb_sig b) = 16%nat /\ gb_id b = 6) bl /\
  decode_cssr_mask clas_cfg (enc_body clas_cfg [] (CMask h bl) ++ tail16) 0 ex_s0 = (s', None).
Proof. exact navic_mask_raises. Qed.
Print Assumptions C18_navic_refuted.

(** C19: orbit *)
Theorem C19_orbit : forall c msg its h v i s, wf_cfg c -> ctx its s -> nets s -> NoDup (map i_sat its) ->
  wf_msg c its s (COrb h v) -> At msg i (enc_body c its (COrb h v)) ->
  exists s', decode_cssr_orb c msg i s = (s', Some (Some (i + length (enc_body c its (COrb h v)))%nat)) /\
  (forall j it x, nth_error its j = Some it -> nth_error v j = Some x ->
     iode_of s' 0 (i_sat it) = Some (o_iode x) /\ dorb_of s' 0 (i_sat it) = Some (orb3_of c x)) /\
  (forall k, ~ In k (map i_sat its) -> iode_of s' 0 k = None /\ dorb_of s' 0 k = None) /\
  (forall k, dclk_of s' 0 k = dclk_of s 0 k).
Proof. exact orb_user. Qed.
Print Assumptions C19_orbit.
Example C19_orbit_case :
  wf_msg clas_cfg ex_its ex_s1 ex_orb /\ NoDup (map i_sat ex_its) /\
  let s' := fst (decode_cssr_orb clas_cfg (enc_body clas_cfg ex_its ex_orb) 0 ex_s1) in
  map (iode_of s' 0) (map i_sat ex_its) = [Some 77; Some 12; Some 1000] /\
  map (dorb_of s' 0) (map i_sat ex_its)
    = [Some (Some 100, Some (-200), Some 300); Some (Some (-1), Some 2, Some (-3)); Some (Some 7, Some 8, None)].
Proof. split; [wfs|]. split; [wfs|]. split; vm_compute; reflexivity. Qed.

(** C19: clock *)
Theorem C19_clock : forall c msg its h v i s, wf_cfg c -> c_has c = false -> ctx its s -> nets s -> NoDup (map i_sat its) ->
  wf_msg c its s (CClk h [] v) -> At msg i (enc_body c its (CClk h [] v)) ->
  exists s', decode_cssr_clk c msg i s = (s', Some (Some (i + length (enc_body c its (CClk h [] v)))%nat)) /\
  (forall j it x, nth_error its j = Some it -> nth_error v j = Some x ->
     dclk_of s' 0 (i_sat it) = Some (c_sval c x (b_clk c))) /\
  (forall k, ~ In k (map i_sat its) -> dclk_of s' 0 k = None) /\
  (forall k, iode_of s' 0 k = iode_of s 0 k /\ dorb_of s' 0 k = dorb_of s 0 k).
Proof. exact clk_user. Qed.
Print Assumptions C19_clock.
Example C19_clock_case :
  wf_msg clas_cfg ex_its ex_s1 ex_clk /\
  let s' := fst (decode_cssr_clk clas_cfg (enc_body clas_cfg ex_its ex_clk) 0 ex_s1) in
  map (dclk_of s' 0) (map i_sat ex_its) = [Some (Some 55); Some (Some (-66)); Some None].
Proof. split; [wfs|]. vm_compute; reflexivity. Qed.

(** C19: code bias *)
Theorem C19_cbias_partial : forall c msg its h v i s, wf_cfg c -> ctx its s -> nets s -> NoDup (map i_sat its) -> distinct_sigs its ->
  wf_msg c its s (CCb h v) -> At msg i (enc_body c its (CCb h v)) ->
  exists s', decode_cssr_cbias c msg i s = (s', Some (Some (i + length (enc_body c its (CCb h v)))%nat)) /\
  (forall j it l k r x, nth_error its j = Some it -> nth_error v j = Some l ->
     nth_error (i_sig it) k = Some r -> nth_error l k = Some x ->
     cbias_of s' 0 (i_sat it) (toTyp r TC) = Some (c_sval c x (b_cb c))) /\
  (forall k q, ~ (exists it r, In it its /\ In r (i_sig it) /\ k = i_sat it /\ q = toTyp r TC) -> cbias_of s' 0 k q = None).
Proof. exact cb_user. Qed.
Print Assumptions C19_cbias_partial.
Example C19_cbias_case :
  wf_msg clas_cfg ex_its ex_s1 ex_cb /\ distinct_sigs ex_its /\
  let s' := fst (decode_cssr_cbias clas_cfg (enc_body clas_cfg ex_its ex_cb) 0 ex_s1) in
  map (fun it => map (fun r => cbias_of s' 0 (i_sat it) (toTyp r TC)) (i_sig it)) ex_its
    = [[Some (Some 1); Some (Some 2)]; [Some (Some (-3)); Some (Some 4)]; [Some None]].
Proof.
  split; [wfs|]. split; [|vm_compute; reflexivity].
  vm_compute. repeat constructor; cbn; intuition discriminate.
Qed.

(** C19: phase bias and discontinuity indicator *)
Theorem C19_pbias_partial : forall c msg its h v i s, wf_cfg c -> ctx its s -> nets s -> NoDup (map i_sat its) -> distinct_sigs its ->
  wf_msg c its s (CPb h v) -> At msg i (enc_body c its (CPb h v)) ->
  exists s', decode_cssr_pbias c msg i s = (s', Some (Some (i + length (enc_body c its (CPb h v)))%nat)) /\
  (forall j it l k r x, nth_error its j = Some it -> nth_error v j = Some l ->
     nth_error (i_sig it) k = Some r -> nth_error l k = Some x ->
     pbias_of s' 0 (i_sat it) (toTyp r TL) = Some (c_sval c (fst x) (b_pb c)) /\
     di_of s' 0 (i_sat it) (toTyp r TL) = Some (snd x)) /\
  (forall k q, ~ (exists it r, In it its /\ In r (i_sig it) /\ k = i_sat it /\ q = toTyp r TL) ->
     pbias_of s' 0 k q = None /\ di_of s' 0 k q = None).
Proof. exact pb_user. Qed.
Print Assumptions C19_pbias_partial.
Example C19_pbias_case :
  wf_msg clas_cfg ex_its ex_s1 ex_pb /\
  let s' := fst (decode_cssr_pbias clas_cfg (enc_body clas_cfg ex_its ex_pb) 0 ex_s1) in
  map (fun it => map (fun r => di_of s' 0 (i_sat it) (toTyp r TL)) (i_sig it)) ex_its
    = [[Some 0; Some 1]; [Some 2; Some 3]; [Some 0]].
Proof. split; [wfs|]. vm_compute; reflexivity. Qed.

(** C19: URA *)
Theorem C19_ura : forall c msg its h v i s, c_has c = false -> ctx its s -> nets s -> NoDup (map i_sat its) ->
  wf_msg c its s (CUra h v) -> At msg i (enc_body c its (CUra h v)) ->
  exists s', decode_cssr_ura c msg i s = (s', Some (Some (i + length (enc_body c its (CUra h v)))%nat)) /\
  (forall j it x, nth_error its j = Some it -> nth_error v j = Some x -> ura_of s' 0 (i_sat it) = Some x) /\
  (forall k, ~ In k (map i_sat its) -> ura_of s' 0 k = None).
Proof. exact ura_user. Qed.
Print Assumptions C19_ura.
Example C19_ura_case :
  wf_msg clas_cfg ex_its ex_s1 ex_ura /\
  let s' := fst (decode_cssr_ura clas_cfg (enc_body clas_cfg ex_its ex_ura) 0 ex_s1) in
  map (ura_of s' 0) (map i_sat ex_its) = [Some (1, 2); Some (3, 4); Some (7, 7)].
Proof. split; [wfs|]. vm_compute; reflexivity. Qed.

(** C19: combined orbit and clock, for all satellites or for the satellites of one network *)
Theorem C19_combined : forall c msg its h net v i s, wf_cfg c -> c_has c = false -> ctx its s -> nets s -> NoDup (map i_sat its) ->
  wf_msg c its s (CComb h true true net v) -> At msg i (enc_body c its (CComb h true true net v)) ->
  let n := match net with None => 0 | Some (k, _) => k end in
  let loc := match net with None => its | Some (_, m) => sel m its end in
  exists s', decode_cssr_comb c msg i s = (s', Some (Some (i + length (enc_body c its (CComb h true true net v)))%nat)) /\
  (forall j it x, nth_error loc j = Some it -> nth_error v j = Some x ->
     iode_of s' n (i_sat it) = Some (o_iode (fst x)) /\ dorb_of s' n (i_sat it) = Some (orb3_of c (fst x)) /\
     dclk_of s' n (i_sat it) = Some (c_sval c (snd x) (b_clk c))) /\
  (forall k, ~ In k (map i_sat loc) -> iode_of s' n k = None /\ dorb_of s' n k = None /\ dclk_of s' n k = None).
Proof. exact comb_user. Qed.
Print Assumptions C19_combined.
Example C19_combined_case :
  wf_msg clas_cfg ex_its ex_s1 ex_comb /\
  let s' := fst (decode_cssr_comb clas_cfg (enc_body clas_cfg ex_its ex_comb) 0 ex_s1) in
  map (iode_of s' 7) (map i_sat ex_its) = [Some 77; None; Some 600] /\
  map (dclk_of s' 7) (map i_sat ex_its) = [Some (Some 9); None; Some (Some (-9))].
Proof. split; [wfs|]. split; vm_compute; reflexivity. Qed.

(** C19: the widths of the orbit, clock and bias fields, and the pattern for "not available" *)
Theorem C19_widths : forall b : bool, let c := if b then has_cfg else clas_cfg in
  c_has c = b /\ [b_o0 c; b_o1 c; b_o2 c; b_clk c; b_cb c; b_pb c] = icd_widths b /\ wf_cfg c /\
  forall w x, (0 < w)%nat -> sb w x ->
    (c_sval c x w = None <-> x = - 2 ^ (Z.of_nat w - 1) \/ (b = true /\ x = 2 ^ (Z.of_nat w - 1) - 1)) /\
    (c_sval c x w = None \/ c_sval c x w = Some x).
Proof. exact cfg_widths. Qed.
Print Assumptions C19_widths.
Example C19_widths_case : c_sval clas_cfg (-16384) 15 = None /\ c_sval clas_cfg 16383 15 = Some 16383 /\ sb 15 16383.
Proof. unfold sb. repeat split; vm_compute; congruence. Qed.

(** C19: slant delay polynomial of each satellite of one network *)
Theorem C19_stec : forall c msg its h st inet m v i s,
  wf_cfg c -> c_has c = false -> ctx its s -> nets s -> NoDup (map i_sat its) ->
  wf_msg c its s (CStec h st inet m v) -> At msg i (enc_body c its (CStec h st inet m v)) ->
  exists s', decode_cssr_stec c msg i s = (s', Some (Some (i + length (enc_body c its (CStec h st inet m v)))%nat)) /\
  (forall k it p, nth_error (sel m its) k = Some it -> nth_error v k = Some p ->
     ci_of s' inet (i_sat it) = Some (val_coef st (snd p)) /\ stec_q_of s' inet (i_sat it) = Some (fst p)) /\
  (forall sat, ~ In sat (map i_sat (sel m its)) -> ci_of s' inet sat = None /\ stec_q_of s' inet sat = None).
Proof. exact stec_user. Qed.
Print Assumptions C19_stec.
Example C19_stec_case :
  wf_msg clas_cfg ex_its ex_s1 ex_stec /\
  let s' := fst (decode_cssr_stec clas_cfg (enc_body clas_cfg ex_its ex_stec) 0 ex_s1) in
  map (ci_of s' 7) (map i_sat ex_its)
    = [Some [Some 5; Some 6; Some 7; Some 0; Some 0; Some 0]; Some [Some (-5); Some (-6); Some (-7); Some 0; Some 0; Some 0]; None] /\
  map (stec_q_of s' 7) (map i_sat ex_its) = [Some (1, 2); Some (3, 4); None].
Proof. split; [wfs|]. split; vm_compute; reflexivity. Qed.

(** C19: gridded correction; the residual of a satellite at grid point [j] is the one sent for that
    satellite and grid point, nothing is left from before, and the zenith delays are those of the point *)
Theorem C19_grid : forall c msg its h tt_ rg inet m q v i s,
  wf_cfg c -> c_has c = false -> ctx its s -> nets s -> NoDup (map i_sat its) ->
  wf_msg c its s (CGrid h tt_ rg inet m q v) -> At msg i (enc_body c its (CGrid h tt_ rg inet m q v)) ->
  let sz := if rg =? 0 then 7%nat else 16%nat in
  exists s', decode_cssr_grid c msg i s = (s', Some (Some (i + length (enc_body c its (CGrid h tt_ rg inet m q v)))%nat)) /\
  (forall j p k it x, nth_error v j = Some p -> nth_error (sel m its) k = Some it -> nth_error (snd p) k = Some x ->
     dstec_of s' inet (i_sat it) j = Some (sval x sz)) /\
  (forall sat j, ~ (In sat (map i_sat (sel m its)) /\ (j < length v)%nat) -> dstec_of s' inet sat j = None) /\
  (forall j p, nth_error v j = Some p ->
     dth_of s' inet j = Some (if tt_ >? 0 then sval (fst (fst p)) 9 else Some 0) /\
     dtw_of s' inet j = Some (if tt_ >? 0 then sval (snd (fst p)) 8 else Some 0)).
Proof. exact grid_user. Qed.
Print Assumptions C19_grid.
Example C19_grid_case :
  wf_msg clas_cfg ex_its ex_s1 ex_grid /\
  let s' := fst (decode_cssr_grid clas_cfg (enc_body clas_cfg ex_its ex_grid) 0 ex_s1) in
  map (fun j => map (fun it => dstec_of s' 7 (i_sat it) j) ex_its) [0; 1; 2]%nat
    = [[Some (Some 3); Some (Some 4); None]; [Some (Some 7); Some None; None]; [None; None; None]] /\
  map (dth_of s' 7) [0; 1]%nat = [Some (Some 1); Some (Some 5)] /\ map (dtw_of s' 7) [0; 1]%nat = [Some (Some 2); Some (Some 6)].
Proof. split; [wfs|]. repeat split; vm_compute; reflexivity. Qed.

(** C19: atmospheric correction (subtype 12) *)
Theorem C19_atmos : forall c msg its h inet ng q fn rs_ stec m v i s,
  wf_cfg c -> c_has c = false -> ctx its s -> nets s -> NoDup (map i_sat its) ->
  let M := CAtmos h inet ng q fn rs_ stec m v in
  wf_msg c its s M -> At msg i (enc_body c its M) ->
  exists s', decode_cssr_atmos c msg i s = (s', Some (Some (i + length (enc_body c its M))%nat)) /\
  (forall k it x, nth_error (sel m its) k = Some it -> nth_error v k = Some x ->
     (stec > 0 -> stec_q_of s' inet (i_sat it) = Some (sv_q x)) /\
     (Z.testbit stec 1 = true -> ci_of s' inet (i_sat it) = Some (val_coef (sv_type x) (sv_c x))) /\
     (Z.testbit stec 0 = true -> forall j y, nth_error (sv_res x) j = Some y ->
        dstec_of s' inet (i_sat it) j = Some (sval y (res_sz (sv_szi x))))) /\
  (forall sat, ~ In sat (map i_sat (sel m its)) ->
     stec_q_of s' inet sat = None /\ (Z.testbit stec 1 = true -> ci_of s' inet sat = None) /\
     (Z.testbit stec 0 = true -> forall j, dstec_of s' inet sat j = None)) /\
  ct_of s' inet = Some (CtVal (option_map val_tropfn fn) (match rs_ with Some r => r_ofst r | None => 0 end)) /\
  (forall r j y, rs_ = Some r -> nth_error (r_v r) j = Some y -> dtw_of s' inet j = Some (sval y (res_w r))).
Proof. exact atmos_user. Qed.
Print Assumptions C19_atmos.
Example C19_atmos_case :
  wf_msg clas_cfg ex_its ex_s1 ex_atmos /\
  let s' := fst (decode_cssr_atmos clas_cfg (enc_body clas_cfg ex_its ex_atmos) 0 ex_s1) in
  map (ci_of s' 7) (map i_sat ex_its)
    = [None; Some [Some 100; Some (-20); Some 30; Some 0; Some 0; Some 0]; Some [Some 1; Some 0; Some 0; Some 0; Some 0; Some 0]] /\
  map (fun j => map (fun it => dstec_of s' 7 (i_sat it) j) ex_its) [0; 1]%nat
    = [[None; Some (Some 3); Some (Some 60)]; [None; Some None; Some (Some (-60))]] /\
  ct_of s' 7 = Some (CtVal (Some (Some 17, Some 3, Some (-3), Some 0)) 9) /\
  map (dtw_of s' 7) [0; 1]%nat = [Some (Some 31); Some None].
Proof. split; [wfs|]. repeat split; vm_compute; reflexivity. Qed.

(** C19: any sequence of messages of all twelve kinds followed by another message type is decoded
    message by message, each one starting at its first bit ([stream_eff] composes the meanings) *)
Theorem C19_stream : forall c msg ms its i s mt st,
  wf_cfg c -> c_has c = false -> ctx its s -> wf_stream c its ms s -> ub 12 mt -> mt <> 4073 -> ub 4 st ->
  At msg i (enc_stream c its ms ++ bitsof 12 mt ++ bitsof 4 st) ->
  decode_cssr c msg i s = (stream_eff c its ms s, ROther).
Proof. exact decode_stream. Qed.
Print Assumptions C19_stream.
Example C19_stream_case :
  wf_stream clas_cfg [] ex_all ex_s0 /\ ctx [] ex_s0 /\
  let s' := fst (decode_cssr clas_cfg (enc_stream clas_cfg [] ex_all ++ tail16) 0 ex_s0) in
  map (iode_of s' 0) (map i_sat ex_its) = [Some 77; Some 12; Some 1000] /\
  map (ci_of s' 7) (map i_sat ex_its)
    = [Some [Some 5; Some 6; Some 7; Some 0; Some 0; Some 0]; Some [Some (-5); Some (-6); Some (-7); Some 0; Some 0; Some 0]; None].
Proof. split; [exact ex_wf|]. split; [exact (fresh_ctx 2200 false (Some [7]) 7)|]. split; vm_compute; reflexivity. Qed.

(** C19 without [distinct_sigs] is false: two QZSS signals share one key *)
Theorem C19_qzss_bias_refuted : exists its s h v s' n it l r x,
  ctx its s /\ wf_msg clas_cfg its s (CCb h v) /\
  decode_cssr_cbias clas_cfg (enc_body clas_cfg its (CCb h v)) 0 s = (s', Some (Some n)) /\
  nth_error its 0 = Some it /\ nth_error v 0 = Some l /\ nth_error (i_sig it) 0 = Some r /\ nth_error l 0 = Some x /\
  cbias_of s' 0 (i_sat it) (toTyp r TC) <> Some (c_sval clas_cfg x (b_cb clas_cfg)).
Proof. exact qzs_bias_lost. Qed.
Print Assumptions C19_qzss_bias_refuted.
(** C19: a code and phase bias message without network is never decoded *)
Theorem C19_bias_no_network_refuted : exists its s s', ctx its s /\ its <> [] /\
  decode_cssr_bias clas_cfg (enc_mh clas_cfg false (ex_h 30 5) ++ [true; true; false] ++ repeat false 400) 0 s = (s', None).
Proof. exact bias_no_network_raises. Qed.
Print Assumptions C19_bias_no_network_refuted.

(** C20. [RFuel] = the model ran out of steps; the loop equation is the source's [while] *)
Theorem C20_terminates : forall c msg i s, snd (decode_cssr c msg i s) <> RFuel.
Proof. exact decode_cssr_stops. Qed.
Print Assumptions C20_terminates.
Theorem C20_loop : forall c msg i s,
  decode_cssr c msg i s =
  match getu msg i 12, getu msg (i + 12) 4 with
  | Some mt, Some st =>
    if mt =? 4073 then
      match decode_sub c msg st (i + 16) (set_s_subtype st s) with
      | (s', None) => (s', RExc)
      | (s', Some None) => (s', RStop)
      | (s', Some (Some j)) => decode_cssr c msg j s'
      end
    else (s, ROther)
  | _, _ => (s, RExc)
  end.
Proof. exact decode_cssr_eq. Qed.
Print Assumptions C20_loop.
Theorem C20_advances : forall c msg st i s s' j,
  decode_sub c msg st (i + 16) s = (s', Some (Some j)) -> (i < j)%nat.
Proof. intros c msg st i s s' j H. pose proof (decode_sub_advances c msg st i s s' j H). lia. Qed.
Print Assumptions C20_advances.
Example C20_case :
  snd (decode_cssr clas_cfg (repeat true 500) 0 ex_s0) = ROther /\
  snd (decode_cssr clas_cfg (concat (repeat (bitsof 12 4073 ++ bitsof 4 15) 30)) 0 ex_s0) = RExc.
Proof. split; vm_compute; reflexivity. Qed.

(** C22 *)
Theorem C22_expired : forall U tc tm time s s', nets s -> check_validity U tc tm time s = (s', Some tt) ->
  (forall k, ~ In k (s_sat_n s) -> dclk_of s' 0 k = dclk_of s 0 k /\ iode_of s' 0 k = iode_of s 0 k /\ dorb_of s' 0 k = dorb_of s 0 k) /\
  (forall k, In k (s_sat_n s) -> exists a b, t0_of s k tCLOCK = Some a /\ t0_of s k tORBIT = Some b /\
     (timediff U time a > tc -> dclk_of s' 0 k = Some (Some 0)) /\
     (timediff U time a <= tc -> dclk_of s' 0 k = dclk_of s 0 k) /\
     (timediff U time b > tm -> iode_of s' 0 k = Some (-1) /\ dorb_of s' 0 k = Some (Some 0, Some 0, Some 0)) /\
     (timediff U time b <= tm -> iode_of s' 0 k = iode_of s 0 k /\ dorb_of s' 0 k = dorb_of s 0 k)).
Proof. exact check_validity_returns. Qed.
Print Assumptions C22_expired.
(** it does return when all of them have been received *)
Theorem C22_returns_partial : forall U tc tm time s dc di dor,
  (0 < length (s_lc s))%nat ->
  l_dclk (lcat s 0) = Some dc -> l_iode (lcat s 0) = Some di -> l_dorb (lcat s 0) = Some dor ->
  (forall sat, In sat (s_sat_n s) -> exists a b, t0_of s sat tCLOCK = Some a /\ t0_of s sat tORBIT = Some b) ->
  exists s', check_validity U tc tm time s = (s', Some tt).
Proof.
  intros U tc tm time s dc di dor H1 H2 H3 H4 H5.
  destruct (check_validity_exact U tc tm time s dc di dor H1 H2 H3 H4 H5) as (a & b & d & E & _). eauto.
Qed.
Print Assumptions C22_returns_partial.
Definition C22_ex : cst := fst (decode_cssr clas_cfg (enc_stream clas_cfg [] ex_all ++ tail16) 0 ex_s0).
Example C22_case :
  nets C22_ex /\
  (let t := match t0_of C22_ex 2 tCLOCK with Some t => t | None => gtime0 end in
   let r := check_validity 1 30 120 (GT (gt t + 31) (gs t)) C22_ex in
   snd r = Some tt /\ dclk_of (fst r) 0 2 = Some (Some 0) /\ iode_of (fst r) 0 2 = Some 77) /\
  (let t := match t0_of C22_ex 2 tCLOCK with Some t => t | None => gtime0 end in
   let r := check_validity 1 30 120 (GT (gt t + 121) (gs t)) C22_ex in
   snd r = Some tt /\ iode_of (fst r) 0 2 = Some (-1)).
Proof. repeat split; vm_compute; reflexivity. Qed.
(** C22 is false of a receiver whose mask names a satellite without corrections: the check raises *)
Theorem C22_no_corrections_refuted : exists ms msg tm_ s',
  wf_stream clas_cfg [] ms ex_s0 /\ msg = enc_stream clas_cfg [] ms ++ tail16 /\
  snd (decode_cssr clas_cfg msg 0 ex_s0) = ROther /\
  check_validity 1 30 120 tm_ (fst (decode_cssr clas_cfg msg 0 ex_s0)) = (s', None).
Proof. exact validity_raises. Qed.
Print Assumptions C22_no_corrections_refuted.
Theorem C22_no_clock_refuted : exists ms msg tm_ s',
  wf_stream clas_cfg [] ms ex_s0 /\ received ms 0 1 /\ msg = enc_stream clas_cfg [] ms ++ tail16 /\
  snd (decode_cssr clas_cfg msg 0 ex_s0) = ROther /\
  check_validity 1 30 120 tm_ (fst (decode_cssr clas_cfg msg 0 ex_s0)) = (s', None).
Proof. exact validity_raises_no_clock. Qed.
Print Assumptions C22_no_clock_refuted.

(** C23. [received ms n b]: some message of the stream carries correction kind [b] for network [n] *)
Theorem C23_complete_partial : forall c msg ms week pb grid net i mt st,
  wf_cfg c -> c_has c = false -> 0 <= net < 33 ->
  let s := fresh week pb grid net in
  wf_stream c [] ms s ->
  At msg i (enc_stream c [] ms ++ bitsof 12 mt ++ bitsof 4 st) -> ub 12 mt -> ub 4 st -> mt <> 4073 ->
  (chk_stat (fst (decode_cssr c msg i s)) = true <->
   (forall b, In b [0; 1; 2; 3] -> received ms 0 b) /\
   (forall b, In b [5; 6] -> received ms net b) /\ (pb = true -> received ms net 4)).
Proof. exact chk_stat_exact. Qed.
Print Assumptions C23_complete_partial.
Theorem C23_bits_stay : forall c msg i s n b, 0 <= n ->
  Z.testbit (l_cstat (lcat s n)) b = true -> Z.testbit (l_cstat (lcat (fst (decode_cssr c msg i s)) n)) b = true.
Proof. exact status_monotone. Qed.
Print Assumptions C23_bits_stay.
Example C23_case :
  chk_stat (fst (decode_cssr clas_cfg (enc_stream clas_cfg [] ex_all ++ tail16) 0 ex_s0)) = true /\
  chk_stat (fst (decode_cssr clas_cfg (enc_stream clas_cfg [] (firstn 7 ex_all) ++ tail16) 0 ex_s0)) = false.
Proof. split; vm_compute; reflexivity. Qed.
(** C23 is false when no local network is selected *)
Theorem C23_no_network_refuted : exists ms,
  let s := fresh 2200 false (Some [7]) (-1) in
  wf_stream clas_cfg [] ms s /\ (forall b, In b [0; 1; 2; 3] -> received ms 0 b) /\
  chk_stat (fst (decode_cssr clas_cfg (enc_stream clas_cfg [] ms ++ tail16) 0 s)) = false.
Proof. exact no_network_incomplete. Qed.
Print Assumptions C23_no_network_refuted.
(** ... in fact no stream completes it *)
Theorem C23_no_network : forall c msg ms week pb grid i mt st,
  wf_cfg c -> c_has c = false ->
  let s := fresh week pb grid (-1) in
  wf_stream c [] ms s ->
  At msg i (enc_stream c [] ms ++ bitsof 12 mt ++ bitsof 4 st) -> ub 12 mt -> ub 4 st -> mt <> 4073 ->
  chk_stat (fst (decode_cssr c msg i s)) = false.
Proof. exact chk_stat_no_network. Qed.
Print Assumptions C23_no_network.
