(** Decoding a transmitted compact-SSR message has exactly its meaning and consumes exactly its bits. *)
From Verif Require Import Base BaseFacts BitProofs CssrModel CssrSpec CssrFacts.
From Coq Require Import ZifyBool ZifyNat.
Open Scope Z_scope.

Definition wf_cfg (c : cfg) : Prop :=
  (1 <= b_o0 c /\ 1 <= b_o1 c /\ 1 <= b_o2 c /\ 1 <= b_clk c /\ 1 <= b_cb c /\ 1 <= b_pb c)%nat.

Section C.
Variable c : cfg.
Variable msg : bits.
Hypothesis Hc : wf_cfg c.

Lemma head_ok mask h i s : wf_mh c mask h -> At msg i (enc_mh c mask h) ->
  exists mi, decode_head c msg mask i s =
    (hd_eff c mask h s, Some (HD (m_udi h) mi (hd_iod c h s), (i + length (enc_mh c mask h))%nat)).
Proof.
  unfold wf_mh, enc_mh, decode_head, hd_eff, hd_iod. destruct (c_has c) eqn:Eh.
  - intros [[-> Hu]|[-> Hu]] Ha; exists 0.
    + rewrite mbind_ret, mbind_modify, mbind_ask. cbn [length]. rewrite Nat.add_0_r, Hu.
      destruct (s_tow0 s >=? 0) eqn:E1; cbn; [destruct (s_week s >=? 0) eqn:E2|]; cbn; rewrite ?E1, ?E2; reflexivity.
    + steps. rewrite bitsof_length.
      destruct (s_tow0 s >=? 0) eqn:E1; cbn; [destruct (s_week s >=? 0) eqn:E2|]; cbn; rewrite ?E1, ?E2; reflexivity.
  - intros (H1 & H2 & H3 & H4) Ha. exists (m_mi h). at_split. destruct mask.
    + steps. fin.
    + steps. fin.
Qed.

(* ---------- context ---------- *)
Lemma hd_ctx its mask h s : ctx its s -> ctx its (hd_eff c mask h s).
Proof.
  unfold hd_eff, ctx. destruct (c_has c), mask, (s_tow0 s >=? 0) eqn:E; cbn; rewrite ?E; cbn;
    destruct (s_week s >=? 0); cbn; auto.
Qed.
Definition same_env (s s' : cst) : Prop :=
  s_iodssr s' = s_iodssr s /\ s_lc s' = s_lc s /\ s_grid s' = s_grid s /\ s_sinfo s' = s_sinfo s /\
  s_ngnss s' = s_ngnss s /\ s_gnss_idx s' = s_gnss_idx s /\ s_nsat_n s' = s_nsat_n s.
Lemma hd_env mask h s : same_env s (hd_eff c mask h s).
Proof.
  unfold hd_eff, same_env. destruct (c_has c), mask, (s_tow0 s >=? 0) eqn:E; cbn; rewrite ?E; cbn;
    destruct (s_week s >=? 0); cbn; auto 10.
Qed.

Lemma sat_k_ok its s k it : ctx its s -> nth_error its k = Some it -> sat_k k s = (s, Some (i_sat it)).
Proof.
  intros (_ & H & _) Hn. unfold sat_k. rewrite mbind_ask, H. unfold lift.
  now rewrite (map_nth_error i_sat _ _ Hn).
Qed.
Lemma sys_k_ok its s k it : ctx its s -> nth_error its k = Some it -> sys_k k s = (s, Some (i_sys it)).
Proof.
  intros (_ & _ & H & _) Hn. unfold sys_k. rewrite mbind_ask, H. unfold lift.
  now rewrite (map_nth_error i_sys _ _ Hn).
Qed.
Lemma sigs_k_ok its s it : ctx its s -> In it its -> sigs_k (i_sat it) s = (s, Some (i_sig it)).
Proof.
  intros (_ & _ & _ & _ & H) Hn. unfold sigs_k. rewrite mbind_ask. unfold lift.
  rewrite Forall_forall in H. now rewrite (H _ Hn).
Qed.

Lemma nth_error_combine {X Y} : forall (xs : list X) (ys : list Y) j x y,
  nth_error (combine xs ys) j = Some (x, y) -> nth_error xs j = Some x /\ nth_error ys j = Some y.
Proof.
  induction xs as [|a xs IH]; intros [|b ys] [|j] x y H; try discriminate H; cbn in *.
  - injection H as -> ->. auto.
  - now apply IH.
Qed.

Lemma forM_its {Y} (P : cst -> Prop) (R : item -> Y -> Prop) (enc : item -> Y -> bits)
    (e : item -> Y -> cst -> cst) (f : nat -> nat -> M nat) its ys i s :
  Forall2 R its ys -> P s -> At msg i (enc2 enc its ys) ->
  (forall j it y i s, nth_error its j = Some it -> R it y -> P s -> At msg i (enc it y) ->
     f j i s = (e it y s, Some (i + length (enc it y))%nat) /\ P (e it y s)) ->
  forM (length its) 0 f i s = (eff2 e its ys s, Some (i + length (enc2 enc its ys))%nat) /\ P (eff2 e its ys s).
Proof.
  intros HR Hs Ha Hf.
  assert (Hl : length its = length (combine its ys)).
  { rewrite combine_length. apply Forall2_len in HR. lia. }
  rewrite Hl.
  apply (forM_enc P msg (fun '(x, y) => enc x y) (fun '(x, y) => e x y) f (combine its ys) 0 i s Hs Ha).
  intros j [it y] i' s' Hn Hs' Ha'. destruct (nth_error_combine _ _ _ _ _ Hn) as [H1 H2].
  apply Hf; auto. clear - HR H1 H2. revert j H1 H2.
  induction HR; intros [|j] H1 H2; cbn in *; try discriminate; [congruence|eauto].
Qed.

(* ---------- per-satellite fields ---------- *)
Lemma orb_sat_ok it v inet i s : wf_orb c (i_sys it) v -> At msg i (enc_orb c (i_sys it) v) ->
  mbind (decode_orb_sat c msg i (i_sat it) (i_sys it) inet)
        (fun i => set_t0 inet (i_sat it) tORBIT ;;; ret i) s =
  (orb_eff c inet it v s, Some (i + length (enc_orb c (i_sys it) v))%nat).
Proof.
  intros (H1 & H2 & H3 & H4) Ha. unfold enc_orb in *. fold (iode_w (i_sys it)) in *.
  destruct Hc as (Hb1 & Hb2 & Hb3 & _).
  at_split. unfold decode_orb_sat. fold (iode_w (i_sys it)).
  rewrite !mbind_assoc. steps. fin.
Qed.

Lemma opt_mul1 (o : option Z) : option_map (Z.mul 1) o = o.
Proof. destruct o as [z|]; cbn [option_map]; [rewrite Z.mul_1_l|]; reflexivity. Qed.
Lemma ozset_ozset {V} k (v w : V) d : ozset k w (ozset k v d) = ozset k w d.
Proof. destruct d; cbn; [|reflexivity]. unfold zset. now rewrite (dset_dset Z.eqb zeqb_ok). Qed.

Lemma clk_sat_ok it v inet i s : sb (b_clk c) v -> At msg i (bitsof (b_clk c) v) ->
  (c_has c = true -> dget gnss_eqb (fst (sat2prn (i_sat it))) (s_dcm s) <> None) ->
  mbind (decode_clk_sat c msg i (i_sat it) inet)
        (fun i => set_t0 inet (i_sat it) tCLOCK ;;; ret i) s =
  (clk_eff c inet it v s, Some (i + b_clk c)%nat).
Proof.
  intros H1 Ha Hd. destruct Hc as (_ & _ & _ & Hb & _).
  unfold decode_clk_sat. steps.
  unfold clk_eff, mult_of. destruct (c_has c).
  - specialize (Hd eq_refl). steps.
    change (s_dcm (updlc _ _ s)) with (s_dcm s).
    destruct (dget gnss_eqb (fst (sat2prn (i_sat it))) (s_dcm s)) as [m|] eqn:E; [|congruence].
    rewrite (mbind_lift _ m) by reflexivity. cbv beta. steps. fin.
    rewrite updlc_updlc. f_equal. apply updlc_ext. intros l. cbn. now rewrite ozset_ozset.
  - steps. rewrite opt_mul1. fin.
Qed.

Lemma cb_sat_ok it r v inet i s : sb (b_cb c) v -> At msg i (bitsof (b_cb c) v) ->
  mbind (decode_cbias_sat c msg i (i_sat it) (toTyp r TC) inet)
        (fun i => set_t0 inet (i_sat it) tCBIAS ;;; ret i) s =
  (cb_eff c inet it r v s, Some (i + b_cb c)%nat).
Proof.
  intros H1 Ha. destruct Hc as (_ & _ & _ & _ & Hb & _).
  unfold decode_cbias_sat. steps. fin.
Qed.
Lemma pb_sat_ok it r p inet i s : sb (b_pb c) (fst p) -> ub 2 (snd p) ->
  At msg i (bitsof (b_pb c) (fst p) ++ bitsof 2 (snd p)) ->
  mbind (decode_pbias_sat c msg i (i_sat it) (toTyp r TL) inet)
        (fun i => set_t0 inet (i_sat it) tPBIAS ;;; ret i) s =
  (pb_eff c inet it r p s, Some (i + (b_pb c + 2))%nat).
Proof.
  intros H1 H2 Ha. destruct Hc as (_ & _ & _ & _ & _ & Hb). at_split.
  unfold decode_pbias_sat. steps. fin.
Qed.

(** run the header, then continue *)
Ltac head_tac Hw Ha :=
  let mi := fresh "mi" in let Hh := fresh "Hh" in
  destruct (head_ok _ _ _ _ Hw Ha) as [mi Hh].

Lemma mbind_head {B} mask h i s (f : head * nat -> M B) r :
  wf_mh c mask h -> At msg i (enc_mh c mask h) ->
  (forall mi, f (HD (m_udi h) mi (hd_iod c h s), (i + length (enc_mh c mask h))%nat) (hd_eff c mask h s) = r) ->
  mbind (decode_head c msg mask i) f s = r.
Proof.
  intros Hw Ha H. destruct (head_ok mask h i s Hw Ha) as [mi Hh].
  rewrite (mbind_ok _ _ _ _ _ Hh). apply H.
Qed.

(* ---------- messages ---------- *)
Definition ok (its : list item) (m : cmsg) (dec : nat -> M (option nat)) : Prop :=
  forall i s, ctx its s -> wf_msg c its s m -> At msg i (enc_body c its m) ->
  dec i s = (msg_eff c its m s, Some (Some (i + length (enc_body c its m))%nat)) /\
  ctx its (msg_eff c its m s).

Lemma orb_ok its h v : ok its (COrb h v) (decode_cssr_orb c msg).
Proof.
  intros i s Hx (Hh & Hv) Ha. cbn [enc_body] in *. apply At_app in Ha as [Ha1 Ha2].
  pose (s1 := updlc 0 (fun l => set_l_iode (Some []) (set_l_dorb (Some []) l))
                (udi_eff tORBIT (m_udi h) (set_s_flg_net false (hd_eff c false h s)))).
  assert (Hx1 : ctx its s1) by (apply (hd_ctx its false h) in Hx; exact Hx).
  destruct (forM_its (ctx its) (fun it => wf_orb c (i_sys it)) (fun it => enc_orb c (i_sys it)) (orb_eff c 0)
    (fun k i => sat <~ sat_k k ;; sys <~ sys_k k ;;
         i <~ decode_orb_sat c msg i sat sys 0 ;; set_t0 0 sat tORBIT ;;; ret i)
    its v (i + length (enc_mh c false h))%nat s1 Hv Hx1 Ha2) as [H1 H2].
  { intros j it y i' s' Hn Hy Hs Hat.
    rewrite (mbind_ok _ _ _ _ _ (sat_k_ok _ _ _ _ Hs Hn)). cbv beta.
    rewrite (mbind_ok _ _ _ _ _ (sys_k_ok _ _ _ _ Hs Hn)). cbv beta.
    split; [now apply orb_sat_ok|exact Hs]. }
  split; [|exact H2].
  unfold decode_cssr_orb. apply (mbind_head false h); auto. intros mi. cbv beta iota. cbn [h_udi h_iod].
  steps. fold s1. change (s_nsat_n s1) with (s_nsat_n (hd_eff c false h s)).
  destruct Hx1 as [Hx1 _]. change (s_nsat_n s1) with (s_nsat_n (hd_eff c false h s)) in Hx1. rewrite Hx1.
  rewrite (mbind_ok _ _ _ _ _ H1). cbv beta. steps. fin.
Qed.

(* clock *)
Lemma dcm_loop idx dcm : forall i s, s_gnss_idx s = idx -> length idx = length dcm -> Forall (ub 2) dcm ->
  At msg i (encs (bitsof 2) dcm) ->
  forM (length idx) 0 (fun k i =>
      g <~ ask s_gnss_idx ;; sys <~ lift (nth_error g k) ;; v <~ ru msg i 2 ;;
      modify (fun s => set_s_dcm (dset gnss_eqb sys (v + 1) (s_dcm s)) s) ;;;
      ret (i + 2)%nat) i s =
  (eff2 (fun sys d s => set_s_dcm (dset gnss_eqb sys (d + 1) (s_dcm s)) s) idx dcm s,
   Some (i + length (encs (bitsof 2) dcm))%nat).
Proof.
  intros i s Hi Hl Hu Ha.
  assert (Hlen : length idx = length (combine idx dcm)) by (rewrite combine_length; lia).
  rewrite Hlen.
  assert (He : encs (bitsof 2) dcm = encs (fun '(_, d) => bitsof 2 d) (combine idx dcm)).
  { unfold encs. f_equal. revert Hl. clear. revert dcm.
    induction idx as [|a l IH]; intros [|d dcm] H; try discriminate H; cbn; [reflexivity|].
    f_equal. apply IH. now injection H. }
  rewrite He in *.
  destruct (forM_enc (fun s => s_gnss_idx s = idx) msg (fun '(_, d) => bitsof 2 d)
    (fun '(sys, d) s => set_s_dcm (dset gnss_eqb sys (d + 1) (s_dcm s)) s)
    (fun k i => g <~ ask s_gnss_idx ;; sys <~ lift (nth_error g k) ;; v <~ ru msg i 2 ;;
      modify (fun s => set_s_dcm (dset gnss_eqb sys (v + 1) (s_dcm s)) s) ;;;
      ret (i + 2)%nat) (combine idx dcm) 0 i s Hi Ha) as [H1 _]; [|exact H1].
  intros j [sys d] i' s' Hn Hs Hat. destruct (nth_error_combine _ _ _ _ _ Hn) as [Hn1 Hn2].
  rewrite Forall_forall in Hu. specialize (Hu d (nth_error_In _ _ Hn2)).
  split; [|exact Hs].
  rewrite mbind_ask, Hs. rewrite (mbind_lift _ sys) by exact Hn1. cbv beta. steps. fin.
Qed.

Lemma dcm_loop_get idx dcm : forall s, length idx = length dcm ->
  let s' := eff2 (fun sys d s => set_s_dcm (dset gnss_eqb sys (d + 1) (s_dcm s)) s) idx dcm s in
  (forall g, In g idx \/ dget gnss_eqb g (s_dcm s) <> None -> dget gnss_eqb g (s_dcm s') <> None) /\
  s' = set_s_dcm (s_dcm s') s.
Proof.
  revert dcm. induction idx as [|a idx IH]; intros [|d dcm] s Hl; try discriminate Hl.
  - cbn. split; [intros g [[]|H]; exact H|]. destruct s; reflexivity.
  - unfold eff2, eff in *. cbn [combine fold_left] in *.
    specialize (IH dcm (set_s_dcm (dset gnss_eqb a (d + 1) (s_dcm s)) s) ltac:(now injection Hl)).
    cbv zeta in IH. destruct IH as [IH1 IH2]. split.
    + intros g Hg. apply IH1. cbn.
      destruct (gnss_eqb a g) eqn:E.
      * apply gnss_eqb_ok in E as <-. right.
        rewrite (dget_dset_same gnss_eqb gnss_eqb_ok). discriminate.
      * assert (a <> g) by (intros ->; rewrite (proj2 (gnss_eqb_ok g g) eq_refl) in E; discriminate).
        destruct Hg as [[->|Hg]|Hg]; [congruence|now left|right].
        rewrite (dget_dset_other gnss_eqb gnss_eqb_ok) by assumption. exact Hg.
    + exact IH2.
Qed.

Lemma clk_ok its h dcm v : ok its (CClk h dcm v) (decode_cssr_clk c msg).
Proof.
  intros i s Hx (Hh & Hv & Hm & Hd) Ha. cbn [enc_body] in *.
  apply At_app in Ha as [Ha1 Ha2]. apply At_app in Ha2 as [Ha2 Ha3].
  set (s1 := udi_eff tCLOCK (m_udi h) (set_s_flg_net false (hd_eff c false h s))).
  pose (s2 := if c_has c then
          eff2 (fun sys d s => set_s_dcm (dset gnss_eqb sys (d + 1) (s_dcm s)) s) (s_gnss_idx s1) dcm (set_s_dcm [] s1)
        else s1).
  pose (i2 := (i + length (enc_mh c false h) + length (if c_has c then encs (bitsof 2) dcm else []))%nat).
  destruct (hd_env false h s) as (He1 & He2 & He3 & He4 & He5 & He6 & He7).
  assert (Hx1 : ctx its s1) by (apply (hd_ctx its false h) in Hx; exact Hx).
  pose (P := fun s => ctx its s /\ (c_has c = true -> s_dcm s = s_dcm s2)).
  assert (Hs2 : s2 = set_s_dcm (s_dcm s2) s1 /\
                (c_has c = true -> forall g, In g (s_gnss_idx s1) -> dget gnss_eqb g (s_dcm s2) <> None)).
  { unfold s2. destruct (c_has c) eqn:Eh.
    - destruct Hd as (_ & Hd2 & Hd3 & _).
      assert (Hl : length (s_gnss_idx s1) = length dcm).
      { change (s_gnss_idx s1) with (s_gnss_idx (hd_eff c false h s)). rewrite He6. congruence. }
      destruct (dcm_loop_get (s_gnss_idx s1) dcm (set_s_dcm [] s1) Hl) as [Hg Hf]. cbv zeta in *.
      split; [rewrite Hf at 1; reflexivity|]. intros _ g Hin. apply Hg. now left.
    - split; [destruct s1; reflexivity|discriminate]. }
  destruct Hs2 as [Hs2 Hg2].
  assert (HP : P (updlc 0 (set_l_dclk (Some [])) s2)).
  { split; [|reflexivity]. rewrite Hs2. exact Hx1. }
  destruct (forM_its P (fun _ => sb (b_clk c)) (fun _ => bitsof (b_clk c)) (clk_eff c 0)
    (fun k i => sat <~ sat_k k ;; i <~ decode_clk_sat c msg i sat 0 ;; set_t0 0 sat tCLOCK ;;; ret i)
    its v i2 (updlc 0 (set_l_dclk (Some [])) s2) Hv HP Ha3) as [H1 [H2 _]].
  { intros j it y i' s' Hn Hy [Hs Hdc] Hat.
    rewrite (mbind_ok _ _ _ _ _ (sat_k_ok _ _ _ _ Hs Hn)). cbv beta. rewrite bitsof_length.
    split; [|split; [exact Hs|exact Hdc]].
    apply clk_sat_ok; auto. intros Eh. rewrite (Hdc Eh).
    apply (Hg2 Eh). destruct (c_has c); [|discriminate]. destruct Hd as (_ & _ & _ & Hd).
    rewrite Forall_forall in Hd. change (s_gnss_idx s1) with (s_gnss_idx (hd_eff c false h s)). rewrite He6.
    apply Hd. eapply nth_error_In; eassumption. }
  split.
  - unfold decode_cssr_clk. apply (mbind_head false h); auto. intros mi. cbv beta iota. cbn [h_udi h_iod].
    steps. fold s1.
    assert (Hcs : Z.testbit (l_cstat (lcat s1 0)) tMASK = true).
    { unfold lcat in *. change (s_lc s1) with (s_lc (hd_eff c false h s)). rewrite He2. exact Hm. }
    rewrite Hcs. cbn [negb].
    assert (Hdl : (if c_has c then
          modify (set_s_dcm []) ;;; n <~ ask s_ngnss ;;
          forM n 0 (fun k i =>
            g <~ ask s_gnss_idx ;; sys <~ lift (nth_error g k) ;; v <~ ru msg i 2 ;;
            modify (fun s => set_s_dcm (dset gnss_eqb sys (v + 1) (s_dcm s)) s) ;;;
            ret (i + 2)%nat) (i + length (enc_mh c false h))%nat
        else ret (i + length (enc_mh c false h))%nat) s1 = (s2, Some i2)).
    { unfold s2, i2. destruct (c_has c) eqn:Eh.
      - destruct Hd as (Hd1 & Hd2 & Hd3 & _). rewrite mbind_modify, mbind_ask.
        change (s_ngnss (set_s_dcm [] s1)) with (s_ngnss (hd_eff c false h s)).
        rewrite He5, <- Hd3, <- He6. change (s_gnss_idx (hd_eff c false h s)) with (s_gnss_idx s1).
        apply dcm_loop; auto.
        change (s_gnss_idx s1) with (s_gnss_idx (hd_eff c false h s)). rewrite He6. congruence.
      - cbn [length]. rewrite Nat.add_0_r. reflexivity. }
    rewrite (mbind_ok _ _ _ _ _ Hdl). cbv beta. steps.
    assert (Hn : s_nsat_n (updlc 0 (set_l_dclk (Some [])) s2) = length its) by (destruct HP as [[Hn _] _]; exact Hn).
    rewrite Hn. rewrite (mbind_ok _ _ _ _ _ H1). cbv beta.
    cbn [msg_eff]. fold s1. cbv zeta. fold s2. unfold when.
    destruct (c_has c) eqn:Eh; steps; fin.
  - cbn [msg_eff]. fold s1. cbv zeta. fold s2. unfold when. destruct (c_has c); exact H2.
Qed.

(* ---------- biases ---------- *)
Lemma eachM_sigs {Y} (P : cst -> Prop) (Q : Y -> Prop) (enc : Y -> bits) (e : rsig -> Y -> cst -> cst)
    (f : rsig -> nat -> M nat) sg ys i s :
  length ys = length sg -> Forall Q ys -> P s -> At msg i (encs enc ys) ->
  (forall r y i s, Q y -> P s -> At msg i (enc y) ->
     f r i s = (e r y s, Some (i + length (enc y))%nat) /\ P (e r y s)) ->
  eachM sg f i s = (eff2 e sg ys s, Some (i + length (encs enc ys))%nat) /\ P (eff2 e sg ys s).
Proof.
  intros Hl HQ Hs Ha Hf.
  assert (He : encs enc ys = enc2 (fun _ => enc) sg ys).
  { unfold encs, enc2. f_equal. revert Hl. clear. revert sg.
    induction ys as [|y ys IH]; intros [|r sg] H; try discriminate H; cbn; [reflexivity|].
    f_equal. apply IH. now injection H. }
  rewrite He in *. apply (eachM_enc P msg (fun _ => enc)); auto.
  intros r y i' s' Hin. apply Hf. rewrite Forall_forall in HQ. apply HQ. now apply in_combine_r in Hin.
Qed.

Lemma cb_ok its h v : ok its (CCb h v) (decode_cssr_cbias c msg).
Proof.
  intros i s Hx (Hh & Hv) Ha. cbn [enc_body] in *. apply At_app in Ha as [Ha1 Ha2].
  pose (s1 := updlc 0 (set_l_cbias []) (udi_eff tCBIAS (m_udi h) (set_s_flg_net false (hd_eff c false h s)))).
  assert (Hx1 : ctx its s1) by (apply (hd_ctx its false h) in Hx; exact Hx).
  edestruct (forM_its (ctx its) _ (fun _ => encs (bitsof (b_cb c)))
    (fun it l s => eff2 (cb_eff c 0 it) (i_sig it) l (clear_cb 0 it s))
    (fun k i => sat <~ sat_k k ;;
         modlc 0 (fun l => set_l_cbias (zset sat [] (l_cbias l)) l) ;;;
         sg <~ sigs_k sat ;;
         eachM sg (fun r i =>
           i <~ decode_cbias_sat c msg i sat (toTyp r TC) 0 ;; set_t0 0 sat tCBIAS ;;; ret i) i)
    its v (i + length (enc_mh c false h))%nat s1 Hv Hx1 Ha2) as [H1 H2].
  { intros j it y i' s' Hn [Hy1 Hy2] Hs Hat.
    rewrite (mbind_ok _ _ _ _ _ (sat_k_ok _ _ _ _ Hs Hn)). cbv beta. rewrite mbind_modlc. cbv beta.
    fold (clear_cb 0 it s').
    assert (Hs' : ctx its (clear_cb 0 it s')) by exact Hs.
    rewrite (mbind_ok _ _ _ _ _ (sigs_k_ok _ _ _ Hs' (nth_error_In _ _ Hn))). cbv beta.
    apply (eachM_sigs (ctx its) (sb (b_cb c)) (bitsof (b_cb c)) (cb_eff c 0 it)); auto.
    intros r y0 i0 s0 Hy0 Hs0 Ha0. rewrite bitsof_length. split; [now apply cb_sat_ok|exact Hs0]. }
  split; [|exact H2].
  unfold decode_cssr_cbias. apply (mbind_head false h); auto. intros mi. cbv beta iota. cbn [h_udi h_iod].
  steps. fold s1. destruct Hx1 as [Hx1 _]. rewrite Hx1.
  rewrite (mbind_ok _ _ _ _ _ H1). cbv beta. steps. fin.
Qed.

Lemma pb_ok its h v : ok its (CPb h v) (decode_cssr_pbias c msg).
Proof.
  intros i s Hx (Hh & Hv) Ha. cbn [enc_body] in *. apply At_app in Ha as [Ha1 Ha2].
  pose (s1 := updlc 0 (fun l => set_l_di [] (set_l_pbias [] l))
     (udi_eff tPBIAS (m_udi h) (set_s_flg_net false (hd_eff c false h s)))).
  assert (Hx1 : ctx its s1) by (apply (hd_ctx its false h) in Hx; exact Hx).
  edestruct (forM_its (ctx its) _ (fun _ => encs (fun p => bitsof (b_pb c) (fst p) ++ bitsof 2 (snd p)))
    (fun it l s => eff2 (pb_eff c 0 it) (i_sig it) l (clear_pb 0 it s))
    (fun k i => sat <~ sat_k k ;;
         modlc 0 (fun l => set_l_di (zset sat [] (l_di l)) (set_l_pbias (zset sat [] (l_pbias l)) l)) ;;;
         sg <~ sigs_k sat ;;
         eachM sg (fun r i =>
           i <~ decode_pbias_sat c msg i sat (toTyp r TL) 0 ;; set_t0 0 sat tPBIAS ;;; ret i) i)
    its v (i + length (enc_mh c false h))%nat s1 Hv Hx1 Ha2) as [H1 H2].
  { intros j it y i' s' Hn [Hy1 Hy2] Hs Hat.
    rewrite (mbind_ok _ _ _ _ _ (sat_k_ok _ _ _ _ Hs Hn)). cbv beta. rewrite mbind_modlc. cbv beta.
    fold (clear_pb 0 it s').
    assert (Hs' : ctx its (clear_pb 0 it s')) by exact Hs.
    rewrite (mbind_ok _ _ _ _ _ (sigs_k_ok _ _ _ Hs' (nth_error_In _ _ Hn))). cbv beta.
    apply (eachM_sigs (ctx its) (fun p => sb (b_pb c) (fst p) /\ ub 2 (snd p))
      (fun p => bitsof (b_pb c) (fst p) ++ bitsof 2 (snd p)) (pb_eff c 0 it)); auto.
    intros r y0 i0 s0 [Hy0 Hy3] Hs0 Ha0. rewrite app_length, !bitsof_length. split; [now apply pb_sat_ok|exact Hs0]. }
  split; [|exact H2].
  unfold decode_cssr_pbias. apply (mbind_head false h); auto. intros mi. cbv beta iota. cbn [h_udi h_iod].
  steps. fold s1. destruct Hx1 as [Hx1 _]. rewrite Hx1.
  rewrite (mbind_ok _ _ _ _ _ H1). cbv beta. steps. fin.
Qed.

(* ---------- URA ---------- *)
Lemma ura_ok its h v : c_has c = false -> ok its (CUra h v) (decode_cssr_ura c msg).
Proof.
  intros Eh i s Hx (Hh & Hiod & Hv) Ha. cbn [enc_body] in *. apply At_app in Ha as [Ha1 Ha2].
  pose (s1 := updlc 0 (set_l_ura (Some [])) (udi_eff tURA (m_udi h) (hd_eff c false h s))).
  assert (Hx1 : ctx its s1) by (apply (hd_ctx its false h) in Hx; exact Hx).
  edestruct (forM_its (ctx its) (fun _ => wf_q) (fun _ p => bitsof 3 (fst p) ++ bitsof 3 (snd p))
    (fun it q => updlc 0 (fun l => set_l_ura (ozset (i_sat it) q (l_ura l)) l))
    (fun k i => sat <~ sat_k k ;;
         cl <~ ru msg i 3 ;; va <~ ru msg (i + 3) 3 ;;
         modlc 0 (fun l => set_l_ura (ozset sat (cl, va) (l_ura l)) l) ;;;
         ret (i + 6)%nat)
    its v (i + length (enc_mh c false h))%nat s1 Hv Hx1 Ha2) as [H1 H2].
  { intros j it [cl va] i' s' Hn [Hy1 Hy2] Hs Hat. cbn [fst snd] in *.
    rewrite (mbind_ok _ _ _ _ _ (sat_k_ok _ _ _ _ Hs Hn)). cbv beta. at_split.
    split; [|exact Hs]. steps. fin. }
  split; [|exact H2].
  destruct (hd_env false h s) as (He1 & _).
  unfold decode_cssr_ura. apply (mbind_head false h); auto. intros mi. cbv beta iota. cbn [h_udi h_iod].
  rewrite mbind_ask, He1. unfold hd_iod. rewrite Eh, Hiod, Z.eqb_refl. cbn [negb].
  steps. fold s1. destruct Hx1 as [Hx1 _]. rewrite Hx1.
  rewrite (mbind_ok _ _ _ _ _ H1). cbv beta. steps. fin.
Qed.

(* ---------- network masks ---------- *)
Lemma local_sat_ok its m s : ctx its s -> length m = length its ->
  decode_local_sat (bval m) s = (s, Some (map i_sat (sel m its))).
Proof.
  intros Hx Hm. unfold decode_local_sat. rewrite mbind_ask. destruct Hx as (Hn & Hs & _). rewrite Hn, <- Hm.
  assert (aux : forall m2 i2 k acc, length m2 = length i2 ->
    (forall j, (j < length m2)%nat -> isset (bval m) (length m) (k + j) = nth j m2 false) ->
    (forall j it, nth_error i2 j = Some it -> nth_error (s_sat_n s) (k + j) = Some (i_sat it)) ->
    forM (length m2) k (fun k acc => if isset (bval m) (length m) k then
        sats <~ ask s_sat_n ;; sat <~ lift (nth_error sats k) ;; ret (acc ++ [sat]) else ret acc) acc s =
    (s, Some (acc ++ map i_sat (sel m2 i2)))).
  { induction m2 as [|b m2 IH]; intros [|it i2] k acc Hl H1 H2; try discriminate Hl.
    - cbn. now rewrite app_nil_r.
    - cbn [length]. rewrite forM_S. cbv beta.
      pose proof (H1 0%nat ltac:(cbn; lia)) as Hb. rewrite Nat.add_0_r in Hb. cbn [nth] in Hb. rewrite Hb.
      pose proof (H2 0%nat it eq_refl) as Hit. rewrite Nat.add_0_r in Hit.
      assert (IH' := fun acc => IH i2 (S k) acc ltac:(now injection Hl)
        ltac:(intros j Hj; change (nth j m2 false) with (nth (S j) (b :: m2) false); rewrite <- (H1 (S j) ltac:(cbn; lia)); f_equal; lia)
        ltac:(intros j x Hx; rewrite <- (H2 (S j) x Hx); f_equal; lia)).
      destruct b.
      + rewrite mbind_assoc, mbind_ask, mbind_assoc. rewrite (mbind_lift _ _ _ _ Hit). rewrite mbind_ret.
        rewrite IH'. change (sel (true :: m2) (it :: i2)) with (it :: sel m2 i2). cbn [map].
        rewrite <- app_assoc. reflexivity.
      + rewrite mbind_ret. rewrite IH'. reflexivity. }
  rewrite (aux m its 0%nat []); auto.
  - intros j Hj. cbn. now apply isset_bval.
  - intros j it Hj. cbn. rewrite Hs. now apply map_nth_error.
Qed.

Lemma mbind_local {B} its m s (f : list Z -> M B) : ctx its s -> length m = length its ->
  mbind (decode_local_sat (bval m)) f s = f (map i_sat (sel m its)) s.
Proof. intros H1 H2. now rewrite (mbind_ok _ _ _ _ _ (local_sat_ok its m s H1 H2)). Qed.

Lemma mbind_bit {B} i b s (f : Z -> M B) : At msg i (bit b) -> mbind (ru msg i 1) f s = f (Z.b2z b) s.
Proof. intros H. now apply mbind_ru, getu_bit. Qed.
Lemma mbind_raw {B} i l n s (f : Z -> M B) : At msg i l -> length l = n -> mbind (ru msg i n) f s = f (bval l) s.
Proof. intros H1 H2. now apply mbind_ru, getu_raw. Qed.
Lemma mbind_guard {B} b s (f : unit -> M B) : b = true -> mbind (lift (guard b)) f s = f tt s.
Proof. intros ->. reflexivity. Qed.

Lemma when_ctx its b f s : ctx its s -> (ctx its s -> ctx its (f s)) -> ctx its (when b f s).
Proof. destruct b; cbn; auto. Qed.

Lemma bias_ok its h cb pb inet m v : ok its (CBias h cb pb inet m v) (decode_cssr_bias c msg).
Proof.
  intros i s Hx (Hh & (Hi & Hm & Hp) & Hv) Ha. cbn [enc_body] in *.
  apply At_app in Ha as [Ha1 Ha]. apply At_app in Ha as [Ha2 Ha]. apply At_app in Ha as [Ha3 Ha].
  apply At_app in Ha as [Ha4 Ha]. apply At_app in Ha as [Ha5 Ha]. apply At_app in Ha as [Ha6 Ha].
  pose (i1 := (i + length (enc_mh c false h) + 3 + (5 + length its))%nat).
  assert (Hat : At msg i1 (enc2 (fun _ : item => encs (fun p => (if cb then bitsof (b_cb c) (fst p) else []) ++
                  (if pb then bitsof (b_pb c) (fst (snd p)) ++ bitsof 2 (snd (snd p)) else []))) (sel m its) v)).
  { eapply At_pos; [exact Ha|]. unfold i1. cbn [bit length]. rewrite bitsof_length. lia. }
  clear Ha.
  pose (sa := updlc inet (fun l => set_l_nsat_n (Z.of_nat (cnt m)) (set_l_sat_n (map i_sat (sel m its)) l))
               (set_s_inet inet (set_s_flg_net true (hd_eff c false h s)))).
  pose (sb_ := when cb (fun s => udi_eff tCBIAS (m_udi h) (updlc inet (set_l_cbias []) s)) sa).
  pose (sc := when pb (fun s => udi_eff tPBIAS (m_udi h) (updlc inet (fun l => set_l_di [] (set_l_pbias [] l)) s)) sb_).
  assert (Hxh : ctx its (hd_eff c false h s)) by now apply hd_ctx.
  assert (Hxc : ctx its sc).
  { unfold sc. apply when_ctx; [|auto]. unfold sb_. apply when_ctx; [exact Hxh|auto]. }
  destruct (forM_sel (ctx its) msg
     (fun _ : item => encs (fun p => (if cb then bitsof (b_cb c) (fst p) else []) ++
                  (if pb then bitsof (b_pb c) (fst (snd p)) ++ bitsof 2 (snd (snd p)) else [])))
     (fun it l s =>
          eff2 (fun r p s => when pb (pb_eff c inet it r (snd p)) (when cb (cb_eff c inet it r (fst p)) s))
               (i_sig it) l (when pb (clear_pb inet it) (when cb (clear_cb inet it) s)))
     (fun k i =>
         svm <~ lift (Some (bval m)) ;;
         if isset svm (length m) k then
           sat <~ sat_k k ;;
           whenM cb (modlc inet (fun l => set_l_cbias (zset sat [] (l_cbias l)) l)) ;;;
           whenM pb (modlc inet (fun l => set_l_di (zset sat [] (l_di l))
                                         (set_l_pbias (zset sat [] (l_pbias l)) l))) ;;;
           ns <~ ask s_nsig_n ;; nsig <~ lift (nth_error ns k) ;;
           forM nsig 0 (fun j i =>
             i <~ (if cb then
                     sg <~ sigs_k sat ;; r <~ lift (nth_error sg j) ;;
                     i <~ decode_cbias_sat c msg i sat (toTyp r TC) inet ;; set_t0 inet sat tCBIAS ;;; ret i
                   else ret i) ;;
             if pb then
               sg <~ sigs_k sat ;; r <~ lift (nth_error sg j) ;;
               i <~ decode_pbias_sat c msg i sat (toTyp r TL) inet ;; set_t0 inet sat tPBIAS ;;; ret i
             else ret i) i
         else ret i)
     m its v 0 i1 sc Hm) as [H1 H2]; auto.
  { apply Forall2_len in Hv. lia. }
  { intros j i' s' Hj Hs. rewrite (mbind_lift _ (bval m)) by reflexivity. cbn [Nat.add].
    rewrite (isset_nth _ _ _ Hj). reflexivity. }
  { intros j it l i' s' Hj Hit Hin Hs Hat'. rewrite (mbind_lift _ (bval m)) by reflexivity. cbn [Nat.add].
    rewrite (isset_nth _ _ _ Hj).
    assert (Hl : length l = length (i_sig it) /\
                 Forall (fun p => sb (b_cb c) (fst p) /\ sb (b_pb c) (fst (snd p)) /\ ub 2 (snd (snd p))) l).
    { clear - Hv Hin. induction Hv; [destruct Hin|]. destruct Hin as [Hin|Hin]; [|auto].
      injection Hin as <- <-. assumption. }
    destruct Hl as [Hl1 Hl2].
    rewrite (mbind_ok _ _ _ _ _ (sat_k_ok _ _ _ _ Hs Hit)). cbv beta.
    rewrite (mbind_whenM cb _ (clear_cb inet it)) by reflexivity. cbv beta.
    rewrite (mbind_whenM pb _ (clear_pb inet it)) by reflexivity. cbv beta.
    set (s1 := when pb (clear_pb inet it) (when cb (clear_cb inet it) s')).
    assert (Hs1 : ctx its s1).
    { apply when_ctx; [|auto]. apply when_ctx; [exact Hs|auto]. }
    rewrite mbind_ask. assert (Hns := Hs1). destruct Hns as (_ & _ & _ & Hns & _). rewrite Hns.
    rewrite (mbind_lift _ (length (i_sig it))) by (now rewrite (map_nth_error _ _ _ Hit)). cbv beta.
    assert (Hlen : length (i_sig it) = length (combine (i_sig it) l)) by (rewrite combine_length; lia).
    rewrite Hlen.
    assert (He : encs (fun p => (if cb then bitsof (b_cb c) (fst p) else []) ++
                  (if pb then bitsof (b_pb c) (fst (snd p)) ++ bitsof 2 (snd (snd p)) else [])) l =
                 encs (fun '(_, p) => (if cb then bitsof (b_cb c) (fst p) else []) ++
                  (if pb then bitsof (b_pb c) (fst (snd p)) ++ bitsof 2 (snd (snd p)) else [])) (combine (i_sig it) l)).
    { unfold encs. f_equal. clear - Hl1. revert Hl1. generalize (i_sig it) as sg. 
      induction l as [|y l IH]; intros [|r sg] H; try discriminate H; cbn; [reflexivity|].
      f_equal. apply IH. now injection H. }
    rewrite He in *.
    apply (forM_enc (ctx its) msg
       (fun '(_, p) => (if cb then bitsof (b_cb c) (fst p) else []) ++
                  (if pb then bitsof (b_pb c) (fst (snd p)) ++ bitsof 2 (snd (snd p)) else []))
       (fun '(r, p) s => when pb (pb_eff c inet it r (snd p)) (when cb (cb_eff c inet it r (fst p)) s))); auto.
    intros q [r p] i0 s0 Hq Hs0 Ha0. cbn [Nat.add].
    destruct (nth_error_combine _ _ _ _ _ Hq) as [Hq1 Hq2].
    rewrite Forall_forall in Hl2. destruct (Hl2 p (nth_error_In _ _ Hq2)) as (Hp1 & Hp2 & Hp3).
    assert (Hin' : In it its) by (eapply nth_error_In; exact Hit).
    apply At_app in Ha0 as [Hac Hap].
    assert (Hcb : (if cb then
                     sg <~ sigs_k (i_sat it) ;; r <~ lift (nth_error sg q) ;;
                     i <~ decode_cbias_sat c msg i0 (i_sat it) (toTyp r TC) inet ;; set_t0 inet (i_sat it) tCBIAS ;;; ret i
                   else ret i0) s0 =
             (when cb (cb_eff c inet it r (fst p)) s0, Some (i0 + length (if cb then bitsof (b_cb c) (fst p) else []))%nat)).
    { destruct cb; cbn [when].
      - rewrite (mbind_ok _ _ _ _ _ (sigs_k_ok _ _ _ Hs0 Hin')). cbv beta.
        rewrite (mbind_lift _ r) by exact Hq1. cbv beta. rewrite bitsof_length. now apply cb_sat_ok.
      - cbn [length]. now rewrite Nat.add_0_r. }
    rewrite (mbind_ok _ _ _ _ _ Hcb). cbv beta.
    set (s2 := when cb (cb_eff c inet it r (fst p)) s0) in *.
    assert (Hs2 : ctx its s2) by (apply when_ctx; [exact Hs0|auto]).
    split; [|apply when_ctx; [exact Hs2|auto]].
    rewrite app_length. destruct pb; cbn [when].
    - rewrite (mbind_ok _ _ _ _ _ (sigs_k_ok _ _ _ Hs2 Hin')). cbv beta.
      rewrite (mbind_lift _ r) by exact Hq1. cbv beta.
      rewrite app_length, !bitsof_length. rewrite Nat.add_assoc. now apply pb_sat_ok.
    - cbn [length]. rewrite Nat.add_0_r. reflexivity. }
  assert (Hfin : msg_eff c its (CBias h cb pb inet m v) s =
    when pb (fun s0 => flag_eff inet tPBIAS (iodc_eff tPBIAS (hd_iod c h s) s0))
     (when cb (fun s0 => flag_eff inet tCBIAS (iodc_eff tCBIAS (hd_iod c h s) s0))
       (eff2 (fun it l s =>
          eff2 (fun r p s => when pb (pb_eff c inet it r (snd p)) (when cb (cb_eff c inet it r (fst p)) s))
               (i_sig it) l (when pb (clear_pb inet it) (when cb (clear_cb inet it) s)))
        (sel m its) v sc))) by reflexivity.
  split.
  - unfold decode_cssr_bias. rewrite mbind_ask.
    assert (Hns : s_nsat_n s = length its) by (destruct Hx as [Hx _]; exact Hx). rewrite Hns.
    apply (mbind_head false h); auto. intros mi. cbv beta iota. cbn [h_udi h_iod].
    rewrite (mbind_bit _ cb) by (eapply At_pos; [exact Ha2|lia]). cbv beta.
    rewrite (mbind_bit _ pb) by (eapply At_pos; [exact Ha3|cbn; lia]). cbv beta.
    rewrite (mbind_bit _ true) by (eapply At_pos; [exact Ha4|cbn; lia]). cbv beta.
    rewrite !b2z_eqb. rewrite mbind_modify. cbv beta.
    rewrite mbind_assoc. rewrite (mbind_ru _ _ _ inet) by (apply getu_val; [eapply At_pos; [exact Ha5|cbn; lia]|exact Hi]).
    cbv beta. rewrite mbind_assoc. rewrite mbind_guard by (apply Nat.ltb_lt; lia). cbv beta.
    rewrite mbind_assoc. rewrite (mbind_raw _ m) by (first [eapply At_pos; [exact Ha6|cbn; len; lia] | exact Hm]).
    cbv beta. rewrite mbind_assoc, mbind_modify. cbv beta.
    rewrite mbind_assoc. rewrite (mbind_local its) by (first [exact Hxh|exact Hm]). cbv beta.
    rewrite mbind_assoc, mbind_modlc, mbind_ret. cbv beta iota.
    rewrite map_length, sel_length by exact Hm. fold sa.
    rewrite (mbind_whenM cb _ (fun s => udi_eff tCBIAS (m_udi h) (updlc inet (set_l_cbias []) s))) by reflexivity. cbv beta.
    fold sb_.
    rewrite (mbind_whenM pb _ (fun s => udi_eff tPBIAS (m_udi h) (updlc inet (fun l => set_l_di [] (set_l_pbias [] l)) s))) by reflexivity.
    cbv beta. fold sc.
    rewrite <- Hm. unfold i1 in H1. rewrite <- Hm in H1. rewrite (mbind_ok _ _ _ _ _ H1). cbv beta.
    rewrite (mbind_whenM cb _ (fun s0 => flag_eff inet tCBIAS (iodc_eff tCBIAS (hd_iod c h s) s0))).
    2:{ rewrite mbind_set_iodc. apply or_cstat_eff. vm_compute; discriminate. }
    cbv beta.
    rewrite (mbind_whenM pb _ (fun s0 => flag_eff inet tPBIAS (iodc_eff tPBIAS (hd_iod c h s) s0))).
    2:{ rewrite mbind_set_iodc. apply or_cstat_eff. vm_compute; discriminate. }
    cbv beta. rewrite Hfin. fin. 
  - rewrite Hfin. apply when_ctx; [|auto]. apply when_ctx; [|auto]. exact H2.
Qed.

(* ---------- STEC coefficients ---------- *)
Lemma coeff_ok st k i s : wf_coef k -> At msg i (enc_coef st k) ->
  decode_stec_coeff msg st i s = (s, Some (val_coef st k, (i + length (enc_coef st k))%nat)).
Proof.
  intros (H0 & H1 & H2 & H3 & H4 & H5). unfold enc_coef, val_coef, decode_stec_coeff.
  destruct (st >? 0), (st >? 1), (st >? 2); intros Ha; at_split; steps; fin.
Qed.

Lemma eachM_map {X Y} (g : X -> Y) (f : Y -> nat -> M nat) : forall l i s,
  eachM (map g l) f i s = eachM l (fun x => f (g x)) i s.
Proof.
  induction l as [|x l IH]; intros i s; [reflexivity|]. cbn [map eachM]. unfold mbind.
  destruct (f (g x) i s) as [s' [i'|]]; [apply IH|reflexivity].
Qed.

(** one value per listed satellite *)
Lemma eachM_items {Y} (P : cst -> Prop) (Q : Y -> Prop) (enc : Y -> bits) (e : item -> Y -> cst -> cst)
    (f : Z -> nat -> M nat) (loc : list item) ys i s :
  length ys = length loc -> Forall Q ys -> P s -> At msg i (encs enc ys) ->
  (forall it y i s, Q y -> P s -> At msg i (enc y) ->
     f (i_sat it) i s = (e it y s, Some (i + length (enc y))%nat) /\ P (e it y s)) ->
  eachM (map i_sat loc) f i s = (eff2 e loc ys s, Some (i + length (encs enc ys))%nat) /\ P (eff2 e loc ys s).
Proof.
  intros Hl HQ Hs Ha Hf. rewrite eachM_map.
  assert (He : encs enc ys = enc2 (fun _ => enc) loc ys).
  { unfold encs, enc2. f_equal. revert Hl. clear. revert loc.
    induction ys as [|y ys IH]; intros [|r sg] H; try discriminate H; cbn; [reflexivity|].
    f_equal. apply IH. now injection H. }
  rewrite He in *. apply (eachM_enc P msg (fun _ => enc)); auto.
  intros x y i' s' Hin Hs' Ha'. apply Hf; auto.
  rewrite Forall_forall in HQ. apply HQ. now apply in_combine_r in Hin.
Qed.

Lemma iod_check {B} h s (f : Z -> M B) : c_has c = false -> m_iod h = s_iodssr s ->
  mbind (ask s_iodssr) f (hd_eff c false h s) = f (m_iod h) (hd_eff c false h s).
Proof.
  intros Eh Hiod. destruct (hd_env false h s) as (He1 & _). now rewrite mbind_ask, He1, Hiod.
Qed.

Lemma stec_ok its h st inet m v : c_has c = false -> ok its (CStec h st inet m v) (decode_cssr_stec c msg).
Proof.
  intros Eh i s Hx (Hh & Hiod & Hst & (Hi & Hm & Hp) & Hl & Hv) Ha. cbn [enc_body] in *.
  apply At_app in Ha as [Ha1 Ha]. apply At_app in Ha as [Ha2 Ha]. apply At_app in Ha as [Ha3 Ha].
  apply At_app in Ha as [Ha4 Ha].
  pose (i1 := (i + length (enc_mh c false h) + (7 + length its))%nat).
  assert (Hat : At msg i1 (encs (fun p => bitsof 3 (fst (fst p)) ++ bitsof 3 (snd (fst p)) ++ enc_coef st (snd p)) v)).
  { eapply At_pos; [exact Ha|]. unfold i1. len. lia. }
  clear Ha.
  pose (s1 := updlc inet (fun l => set_l_stype [] (set_l_ci (Some []) (set_l_flg_stec 2 l)))
      (udi_eff tSTEC (m_udi h) (updlc inet (fun l => set_l_stec_q [] (set_l_nsat_n (Z.of_nat (cnt m)) (set_l_sat_n (map i_sat (sel m its)) l)))
      (updlc inet (set_l_netmask (bval m)) (set_s_flg_net true (hd_eff c false h s)))))).
  assert (Hxh : ctx its (hd_eff c false h s)) by now apply hd_ctx.
  assert (Hx1 : ctx its s1) by exact Hxh.
  destruct (eachM_items (ctx its) (fun p => wf_q (fst p) /\ wf_coef (snd p))
     (fun p => bitsof 3 (fst (fst p)) ++ bitsof 3 (snd (fst p)) ++ enc_coef st (snd p))
     (stec_coef_eff inet st)
     (fun sat i =>
         set_t0 inet sat tSTEC ;;;
         cl <~ ru msg i 3 ;; va <~ ru msg (i + 3) 3 ;;
         modlc inet (fun l => set_l_stec_q (zset sat (cl, va) (l_stec_q l)) l) ;;;
         '(ci, i) <~ decode_stec_coeff msg st (i + 6) ;;
         modlc inet (fun l => set_l_ci (ozset sat ci (l_ci l)) l) ;;;
         ret i) (sel m its) v i1 s1) as [H1 H2]; auto.
  { rewrite sel_length by exact Hm. exact Hl. }
  { intros it [[cl va] k] i' s' [[Hq1 Hq2] Hk] Hs Hat'. cbn [fst snd] in *.
    split; [|exact Hs]. at_split. steps.
    rewrite (mbind_ok _ _ _ _ _ (coeff_ok st k (i' + 6)%nat _ Hk ltac:(eapply At_pos; [exact Hat'|len; lia]))). cbv beta iota. steps. fin. }
  split; [|exact H2].
  unfold decode_cssr_stec. apply (mbind_head false h); auto. intros mi. cbv beta iota. cbn [h_udi h_iod].
  rewrite iod_check by assumption. unfold hd_iod. rewrite Eh, Z.eqb_refl. cbn [negb].
  steps. rewrite (proj1 (Hxh : s_nsat_n (set_s_flg_net true (hd_eff c false h s)) = length its /\ _)). steps.
  rewrite mbind_guard by (apply Nat.ltb_lt; lia).
  rewrite (mbind_raw _ m) by (first [eapply At_pos; [exact Ha4|len; lia] | exact Hm]). cbv beta. steps.
  rewrite (mbind_local its) by (first [exact Hxh|exact Hm]). cbv beta.
  rewrite map_length, sel_length by exact Hm. steps. fold s1. unfold i1 in H1.
  rewrite (mbind_ok _ _ _ _ _ H1). cbv beta. steps. fin.
Qed.

(* ---------- combined orbit and clock ---------- *)
Lemma comb_item_ok its inet it p j i s : c_has c = false -> ctx its s -> nth_error its j = Some it ->
  wf_orb c (i_sys it) (fst p) -> sb (b_clk c) (snd p) -> forall orb clk : bool,
  At msg i ((if orb then enc_orb c (i_sys it) (fst p) else []) ++ (if clk then bitsof (b_clk c) (snd p) else [])) ->
  (sat <~ sat_k j ;;
         i <~ (if orb then
                 sys <~ sys_k j ;;
                 i <~ decode_orb_sat c msg i sat sys inet ;; set_t0 inet sat tORBIT ;;; ret i
               else ret i) ;;
         if clk then
           i <~ decode_clk_sat c msg i sat inet ;; set_t0 inet sat tCLOCK ;;; ret i
         else ret i) s =
  (when clk (clk_eff c inet it (snd p)) (when orb (orb_eff c inet it (fst p)) s),
   Some (i + length ((if orb then enc_orb c (i_sys it) (fst p) else []) ++ (if clk then bitsof (b_clk c) (snd p) else [])))%nat)
  /\ ctx its (when clk (clk_eff c inet it (snd p)) (when orb (orb_eff c inet it (fst p)) s)).
Proof.
  intros Eh Hs Hit Hw1 Hw2 orb clk Ha. apply At_app in Ha as [Ha1 Ha2].
  rewrite (mbind_ok _ _ _ _ _ (sat_k_ok _ _ _ _ Hs Hit)). cbv beta.
  assert (Horb : (if orb then
                 sys <~ sys_k j ;;
                 i <~ decode_orb_sat c msg i (i_sat it) sys inet ;; set_t0 inet (i_sat it) tORBIT ;;; ret i
               else ret i) s =
     (when orb (orb_eff c inet it (fst p)) s, Some (i + length (if orb then enc_orb c (i_sys it) (fst p) else []))%nat)).
  { destruct orb; cbn [when].
    - rewrite (mbind_ok _ _ _ _ _ (sys_k_ok _ _ _ _ Hs Hit)). cbv beta. now apply orb_sat_ok.
    - cbn [length]. now rewrite Nat.add_0_r. }
  rewrite (mbind_ok _ _ _ _ _ Horb). cbv beta.
  set (s2 := when orb (orb_eff c inet it (fst p)) s) in *.
  assert (Hs2 : ctx its s2) by (apply when_ctx; [exact Hs|auto]).
  split; [|apply when_ctx; [exact Hs2|auto]].
  rewrite app_length. destruct clk; cbn [when].
  - rewrite bitsof_length, Nat.add_assoc. apply clk_sat_ok; auto. rewrite Eh. discriminate.
  - cbn [length]. rewrite Nat.add_0_r. reflexivity.
Qed.

Lemma comb_ok its h orb clk net v : c_has c = false -> ok its (CComb h orb clk net v) (decode_cssr_comb c msg).
Proof.
  intros Eh i s Hx (Hh & Hiod & Hnet & Hv & _) Ha. cbn [enc_body] in *.
  apply At_app in Ha as [Ha1 Ha]. apply At_app in Ha as [Ha2 Ha]. apply At_app in Ha as [Ha3 Ha].
  apply At_app in Ha as [Ha4 Ha].
  assert (Hxh : ctx its (hd_eff c false h s)) by now apply hd_ctx.
  assert (Hns : s_nsat_n (hd_eff c false h s) = length its) by exact (proj1 Hxh).
  pose (enc := fun (it : item) (p : orbv * Z) => (if orb then enc_orb c (i_sys it) (fst p) else []) ++
                        (if clk then bitsof (b_clk c) (snd p) else [])).
  pose (inet := match net with None => 0 | Some (k, _) => k end).
  pose (step := fun it p s => when clk (clk_eff c inet it (snd p)) (when orb (orb_eff c inet it (fst p)) s)).
  pose (pre := fun s0 => when clk (fun s => udi_eff tCLOCK (m_udi h) (updlc inet (set_l_dclk (Some [])) s))
      (when orb (fun s => udi_eff tORBIT (m_udi h) (updlc inet (fun l => set_l_iode (Some []) (set_l_dorb (Some []) l)) s)) s0)).
  assert (Hpre : forall s0, ctx its s0 -> ctx its (pre s0)).
  { intros s0 H0. apply when_ctx; [|auto]. apply when_ctx; [exact H0|auto]. }
  pose (post := fun s0 => when orb (flag_eff inet tORBIT) (when clk (flag_eff inet tCLOCK) s0)).
  assert (Hpost : forall s0, ctx its s0 -> ctx its (post s0)).
  { intros s0 H0. apply when_ctx; [|auto]. apply when_ctx; [exact H0|auto]. }
  assert (Hend : forall s0 (j : nat),
     (whenM clk (or_cstat inet tCLOCK) ;;; whenM orb (or_cstat inet tORBIT) ;;; ret (Some j)) s0 = (post s0, Some (Some j))).
  { intros s0 j. unfold post.
    rewrite (mbind_whenM clk _ (flag_eff inet tCLOCK)) by (apply or_cstat_eff; vm_compute; discriminate).
    rewrite (mbind_whenM orb _ (flag_eff inet tORBIT)) by (apply or_cstat_eff; vm_compute; discriminate).
    reflexivity. }
  assert (Hbeg : forall {B} s0 (f : M B),
     (whenM orb (modlc inet (fun l => set_l_iode (Some []) (set_l_dorb (Some []) l)) ;;; set_udi tORBIT (m_udi h)) ;;;
      whenM clk (modlc inet (set_l_dclk (Some [])) ;;; set_udi tCLOCK (m_udi h)) ;;; f) s0 = f (pre s0)).
  { intros B s0 f.
    rewrite (mbind_whenM orb _ (fun s => udi_eff tORBIT (m_udi h) (updlc inet (fun l => set_l_iode (Some []) (set_l_dorb (Some []) l)) s))) by reflexivity.
    rewrite (mbind_whenM clk _ (fun s => udi_eff tCLOCK (m_udi h) (updlc inet (set_l_dclk (Some [])) s))) by reflexivity.
    reflexivity. }
  unfold decode_cssr_comb.
  destruct net as [[k m]|].
  - destruct Hnet as (Hi & Hm & Hp). apply At_app in Ha as [Ha5 Ha]. apply At_app in Ha5 as [Ha5 Ha6].
    pose (i1 := (i + length (enc_mh c false h) + 3 + (5 + length its))%nat).
    assert (Hat : At msg i1 (enc2 enc (sel m its) v)) by (eapply At_pos; [exact Ha|unfold i1; len; lia]). clear Ha.
    pose (s1 := pre (updlc k (set_l_svmask (bval m)) (set_s_inet k (set_s_flg_net true (hd_eff c false h s))))).
    assert (Hx1 : ctx its s1) by (apply Hpre; exact Hxh).
    destruct (forM_sel (ctx its) msg enc step
       (fun k i =>
         if true && negb (isset (bval m) (length m) k) then ret i else
         sat <~ sat_k k ;;
         i <~ (if orb then
                 sys <~ sys_k k ;;
                 i <~ decode_orb_sat c msg i sat sys inet ;; set_t0 inet sat tORBIT ;;; ret i
               else ret i) ;;
         if clk then
           i <~ decode_clk_sat c msg i sat inet ;; set_t0 inet sat tCLOCK ;;; ret i
         else ret i) m its v 0 i1 s1) as [H1 H2]; auto.
    { apply Forall2_len in Hv. lia. }
    { intros j i' s' Hj Hs. cbn [Nat.add andb]. rewrite (isset_nth _ _ _ Hj). reflexivity. }
    { intros j it p i' s' Hj Hit Hin Hs Hat'. cbn [Nat.add andb]. rewrite (isset_nth _ _ _ Hj). cbn [negb].
      assert (Hp' : wf_orb c (i_sys it) (fst p) /\ sb (b_clk c) (snd p)).
      { clear - Hv Hin. induction Hv; [destruct Hin|]. destruct Hin as [Hin|Hin]; [|auto].
        injection Hin as <- <-. assumption. }
      destruct Hp'. now apply (comb_item_ok its inet it p j i' s'). }
    split.
    + apply (mbind_head false h); auto. intros mi. cbv beta iota. cbn [h_udi h_iod].
      rewrite iod_check by assumption. unfold hd_iod. rewrite Eh, Z.eqb_refl. cbn [negb].
      rewrite mbind_ask, Hns.
      rewrite (mbind_bit _ orb) by (eapply At_pos; [exact Ha2|len; lia]). cbv beta.
      rewrite (mbind_bit _ clk) by (eapply At_pos; [exact Ha3|len; lia]). cbv beta.
      rewrite (mbind_bit _ true) by (eapply At_pos; [exact Ha4|len; lia]). cbv beta.
      rewrite !b2z_eqb. rewrite mbind_modify. cbv beta.
      rewrite mbind_assoc. rewrite (mbind_ru _ _ _ k) by (apply getu_val; [eapply At_pos; [exact Ha5|len; lia]|exact Hi]).
      cbv beta. rewrite mbind_assoc. rewrite mbind_guard by (apply Nat.ltb_lt; lia). cbv beta.
      rewrite mbind_assoc. rewrite (mbind_raw _ m) by (first [eapply At_pos; [exact Ha6|len; lia] | exact Hm]).
      cbv beta. rewrite mbind_assoc, mbind_modify. cbv beta. rewrite mbind_assoc, mbind_modlc, mbind_ret. cbv beta iota.
      change k with inet. rewrite Hbeg. change inet with k at 1. fold s1. rewrite <- Hm. unfold i1 in H1. rewrite <- Hm in H1.
      cbv beta. rewrite (mbind_ok _ _ _ _ _ H1). cbv beta. rewrite Hend.
      apply pair_eq; [reflexivity|]. apply some_eq, some_eq. unfold enc. len. lia.
    + apply Hpost. exact H2.
  - pose (i1 := (i + length (enc_mh c false h) + 3)%nat).
    assert (Hat : At msg i1 (enc2 enc its v)) by (eapply At_pos; [exact Ha|unfold i1; len; lia]). clear Ha.
    pose (s1 := pre (set_s_flg_net false (hd_eff c false h s))).
    assert (Hx1 : ctx its s1) by (apply Hpre; exact Hxh).
    destruct (forM_its (ctx its) (fun it p => wf_orb c (i_sys it) (fst p) /\ sb (b_clk c) (snd p)) enc step
       (fun k i =>
         if false && negb (isset 0 (length its) k) then ret i else
         sat <~ sat_k k ;;
         i <~ (if orb then
                 sys <~ sys_k k ;;
                 i <~ decode_orb_sat c msg i sat sys inet ;; set_t0 inet sat tORBIT ;;; ret i
               else ret i) ;;
         if clk then
           i <~ decode_clk_sat c msg i sat inet ;; set_t0 inet sat tCLOCK ;;; ret i
         else ret i) its v i1 s1 Hv Hx1 Hat) as [H1 H2].
    { intros j it p i' s' Hit [Hw1 Hw2] Hs Hat'. cbn [andb].
      now apply (comb_item_ok its inet it p j i' s'). }
    split.
    + apply (mbind_head false h); auto. intros mi. cbv beta iota. cbn [h_udi h_iod].
      rewrite iod_check by assumption. unfold hd_iod. rewrite Eh, Z.eqb_refl. cbn [negb].
      rewrite mbind_ask, Hns.
      rewrite (mbind_bit _ orb) by (eapply At_pos; [exact Ha2|len; lia]). cbv beta.
      rewrite (mbind_bit _ clk) by (eapply At_pos; [exact Ha3|len; lia]). cbv beta.
      rewrite (mbind_bit _ false) by (eapply At_pos; [exact Ha4|len; lia]). cbv beta.
      rewrite !b2z_eqb. rewrite mbind_modify. cbv beta. rewrite mbind_ret. cbv beta iota.
      change (modlc 0 ?f) with (modlc inet f). rewrite Hbeg. fold s1. unfold i1 in H1.
      rewrite (mbind_ok _ _ _ _ _ H1). cbv beta. rewrite Hend.
      apply pair_eq; [reflexivity|]. apply some_eq, some_eq. unfold enc. len. cbn [app]. lia.
    + apply Hpost. exact H2.
Qed.

(* ---------- service information ---------- *)
Lemma splice_nil {A} (l : list A) j : splice l j [] = l.
Proof. unfold splice. cbn [length app]. rewrite Nat.add_0_r. apply firstn_skipn. Qed.
Lemma splice_splice {A} (l a b : list A) j : (j + length a + length b <= length l)%nat ->
  splice (splice l j a) (j + length a) b = splice l j (a ++ b).
Proof.
  intros H. unfold splice.
  assert (Hf : length (firstn j l) = j) by (rewrite firstn_length; lia).
  assert (E : length (firstn j l ++ a) = (j + length a)%nat) by (rewrite app_length; lia).
  rewrite (app_assoc (firstn j l) a).
  rewrite firstn_app, firstn_all2 by lia. rewrite E, Nat.sub_diag, firstn_O, app_nil_r.
  rewrite skipn_app, E. rewrite skipn_all2 by lia. cbn [app].
  replace (j + length a + length b - (j + length a))%nat with (length b) by lia.
  rewrite skipn_skipn_add. rewrite app_length, <- !app_assoc. do 3 f_equal. f_equal. lia.
Qed.
Lemma sinfo_self s : set_s_sinfo (s_sinfo s) s = s.
Proof. destruct s; reflexivity. Qed.

Lemma si_loop : forall w k i j s, At msg i (encs (bitsof 40) w) -> Forall (ub 40) w ->
  (j + 40 * length w <= length (s_sinfo s))%nat ->
  forM (length w) k (fun _ (a : nat * nat) =>
       let (i, j) := a in
       d <~ ru msg i 40 ;;
       si <~ ask s_sinfo ;; si <~ lift (putu si j 40 d) ;; modify (set_s_sinfo si) ;;;
       ret ((i + 40)%nat, (j + 40)%nat)) (i, j) s =
  (set_s_sinfo (splice (s_sinfo s) j (encs (bitsof 40) w)) s,
   Some ((i + length (encs (bitsof 40) w))%nat, (j + length (encs (bitsof 40) w))%nat)).
Proof.
  induction w as [|d w IH]; intros k i j s Ha Hw Hj.
  - cbn. rewrite splice_nil, sinfo_self, !Nat.add_0_r. reflexivity.
  - unfold encs in *. cbn [map concat length] in *. apply At_app in Ha as [Ha1 Ha2].
    inversion_clear Hw as [|? ? Hd Hw'].
    rewrite forM_S. cbv beta iota. steps.
    rewrite (mbind_lift _ (splice (s_sinfo s) j (bitsof 40 d))).
    2:{ apply putu_some. repeat split; [lia|apply Hd|apply Hd]. }
    steps. rewrite bitsof_length in Ha2.
    assert (Hls : length (s_sinfo (set_s_sinfo (splice (s_sinfo s) j (bitsof 40 d)) s)) = length (s_sinfo s)).
    { change (length (splice (s_sinfo s) j (bitsof 40 d)) = length (s_sinfo s)).
      apply splice_length. rewrite bitsof_length. lia. }
    rewrite IH; auto; [|lia].
    assert (Hcl : length (concat (map (bitsof 40) w)) = (40 * length w)%nat).
    { clear. induction w as [|x w IH]; [reflexivity|]. cbn [map concat length]. rewrite app_length, bitsof_length, IH. lia. }
    apply pair_eq.
    + rewrite <- splice_splice by (rewrite bitsof_length; lia). rewrite bitsof_length. reflexivity.
    + rewrite app_length, bitsof_length. apply some_eq, pair_eq; lia.
Qed.

Lemma si_ok its mi n w : ok its (CSi mi n w) (decode_cssr_sinfo msg).
Proof.
  intros i s Hx (H1 & H2 & H3 & H4 & H5) Ha. cbn [enc_body] in *. at_split.
  split; [|exact Hx].
  unfold decode_cssr_sinfo. steps.
  assert (Hw : 0 <= Z.of_nat (length w) - 1 < 4) by lia.
  replace (Z.to_nat (Z.of_nat (length w) - 1 + 1)) with (length w) by lia.
  erewrite (mbind_ok (forM _ _ _ _)).
  2:{ apply si_loop; [eapply At_pos; [exact Ha|len; lia]|exact H4|].
      change (s_sinfo (set_s_flg_net false s)) with (s_sinfo s). rewrite H5.
      assert (Z.to_nat n <= 7)%nat by (unfold ub in H2; cbn in H2; lia). nia. }
  cbv beta iota. fin.
Qed.

(* ---------- grid ---------- *)
Lemma eachM_stamp inet ct : forall (loc : list item) s,
  eachM (map i_sat loc) (fun sat (_ : unit) => set_t0 inet sat ct) tt s =
  (eff (fun it => stamp inet (i_sat it) ct) loc s, Some tt).
Proof.
  induction loc as [|it loc IH]; intros s; [reflexivity|].
  cbn [map eachM]. rewrite mbind_set_t0. rewrite IH. reflexivity.
Qed.

Lemma eff_ctx {X} its (f : X -> cst -> cst) : (forall x s, ctx its s -> ctx its (f x s)) ->
  forall l s, ctx its s -> ctx its (eff f l s).
Proof. intros H. induction l as [|x l IH]; intros s Hs; [exact Hs|]. apply IH. auto. Qed.

Lemma encs_const_len {X} (f : X -> bits) w : (forall x, length (f x) = w) ->
  forall l, length (encs f l) = (w * length l)%nat.
Proof.
  intros H. induction l as [|x l IH]; [cbn; lia|]. unfold encs in *. cbn [map concat length].
  rewrite app_length, H, IH. lia.
Qed.

Lemma grid_pt_ok its inet loc tt_ sz j p i s :
  ctx its s -> (1 <= sz)%nat -> sb 9 (fst (fst p)) -> sb 8 (snd (fst p)) -> length (snd p) = length loc ->
  Forall (sb sz) (snd p) ->
  At msg i ((if tt_ >? 0 then bitsof 9 (fst (fst p)) ++ bitsof 8 (snd (fst p)) else []) ++ encs (bitsof sz) (snd p)) ->
  (i <~ (if tt_ >? 0 then
                 a <~ rs msg i 9 ;; b <~ rs msg (i + 9) 8 ;;
                 modlc inet (fun l => set_l_dtw (option_map (fun x => splice x j [sval b 8]) (l_dtw l))
                                     (set_l_dth (option_map (fun x => splice x j [sval a 9]) (l_dth l)) l)) ;;;
                 ret (i + 17)%nat
               else ret i) ;;
         eachM (map i_sat loc) (fun sat i =>
           d <~ rs msg i sz ;;
           modlc inet (app_stec sat j (sval d sz)) ;;;
           ret (i + sz)%nat) i) s =
  (grid_pt_eff inet loc tt_ sz j p s,
   Some (i + length ((if tt_ >? 0 then bitsof 9 (fst (fst p)) ++ bitsof 8 (snd (fst p)) else []) ++ encs (bitsof sz) (snd p)))%nat)
  /\ ctx its (grid_pt_eff inet loc tt_ sz j p s).
Proof.
  intros Hs Hsz Hp1 Hp2 Hl Hv Ha. apply At_app in Ha as [Ha1 Ha2].
  unfold grid_pt_eff.
  assert (Hloop : forall i0 s0, ctx its s0 -> At msg i0 (encs (bitsof sz) (snd p)) ->
    eachM (map i_sat loc) (fun sat i =>
           d <~ rs msg i sz ;;
           modlc inet (app_stec sat j (sval d sz)) ;;;
           ret (i + sz)%nat) i0 s0 =
    (eff2 (fun it v => stec_at inet (i_sat it) j (sval v sz)) loc (snd p) s0,
     Some (i0 + length (encs (bitsof sz) (snd p)))%nat) /\
    ctx its (eff2 (fun it v => stec_at inet (i_sat it) j (sval v sz)) loc (snd p) s0)).
  { intros i0 s0 Hs0 Ha0. apply (eachM_items (ctx its) (sb sz) (bitsof sz)); auto.
    intros it y i1 s1 Hy Hs1 Ha3. split; [|exact Hs1]. steps. fin. }
  destruct (tt_ >? 0).
  - apply At_app in Ha1 as [Ha1 Ha3].
    edestruct Hloop as [H1 H2]; [| |split; [|exact H2]].
    + exact Hs.
    + exact Ha2.
    + steps. len. rewrite H1 || (replace (i + 17)%nat with (i + (9 + 8))%nat by lia; rewrite H1).
      fin.
  - cbn [app length] in *. rewrite Nat.add_0_r in Ha2. destruct (Hloop i s Hs Ha2) as [H1 H2].
    split; [|exact H2]. steps. exact H1.
Qed.

Lemma grid_ok its h tt_ rg inet m q v : c_has c = false -> ok its (CGrid h tt_ rg inet m q v) (decode_cssr_grid c msg).
Proof.
  intros Eh i s Hx (Hh & Hiod & Htt & Hrg & (Hi & Hm & Hp) & (Hq1 & Hq2) & Hng & Hgrid & Hv) Ha. cbn [enc_body] in *.
  apply At_app in Ha as [Ha1 Ha]. apply At_app in Ha as [Ha2 Ha]. apply At_app in Ha as [Ha3 Ha].
  apply At_app in Ha as [Ha4 Ha]. apply At_app in Ha as [Ha5 Ha]. apply At_app in Ha as [Ha6 Ha].
  apply At_app in Ha as [Ha7 Ha]. apply At_app in Ha as [Ha8 Ha].
  pose (sz := if rg =? 0 then 7%nat else 16%nat).
  assert (Hsz : (1 <= sz)%nat) by (unfold sz; destruct (rg =? 0); lia).
  fold sz in Ha, Hv.
  pose (enc := fun p : (Z * Z) * list Z => (if tt_ >? 0 then bitsof 9 (fst (fst p)) ++ bitsof 8 (snd (fst p)) else []) ++
                     encs (bitsof sz) (snd p)).
  pose (i1 := (i + length (enc_mh c false h) + (20 + length its))%nat).
  assert (Hat : At msg i1 (encs enc v)) by (eapply At_pos; [exact Ha|unfold i1; len; lia]). clear Ha.
  pose (loc := sel m its). pose (ng := length v).
  pose (s1 := updlc inet (fun l => set_l_flg_trop (if tt_ >? 0 then 3 else 0)
                 (set_l_s_sz (fold_left (fun d sat => zset sat (Z.of_nat sz) d) (map i_sat loc) [])
                 (set_l_dstec (fold_left (fun d sat => zset sat [] d) (map i_sat loc) [])
                 (set_l_ct (Some CtStd)
                 (set_l_dtw (Some (repeat (Some 0) ng)) (set_l_dth (Some (repeat (Some 0) ng)) l))))))
      (updlc inet (fun l => set_l_trop_q (Some q) (set_l_ng (Z.of_nat ng)
                 (set_l_nsat_n (Z.of_nat (cnt m)) (set_l_sat_n (map i_sat loc) l))))
      (updlc inet (set_l_netmask (bval m)) (udi_eff tTROP (m_udi h) (set_s_flg_net true (hd_eff c false h s)))))).
  assert (Hxh : ctx its (hd_eff c false h s)) by now apply hd_ctx.
  assert (Hns : s_nsat_n (hd_eff c false h s) = length its) by exact (proj1 Hxh).
  assert (Hx1 : ctx its s1) by exact Hxh.
  assert (Hll : length loc = cnt m) by (apply sel_length; exact Hm).
  assert (Hcl : length v = length (combine (seq 0 ng) v)) by (rewrite combine_length, seq_length; unfold ng; lia).
  assert (Henc : encs enc v = encs (fun '(_, p) => enc p) (combine (seq 0 ng) v)).
  { unfold encs. f_equal. unfold ng. clear. generalize 0%nat as k. induction v as [|x v IH]; intros k; [reflexivity|].
    cbn [length seq combine map]. f_equal. apply IH. }
  destruct (forM_enc (ctx its) msg (fun '(_, p) => enc p) (fun '(j, p) => grid_pt_eff inet loc tt_ sz j p)
     (fun j i =>
         i <~ (if tt_ >? 0 then
                 a <~ rs msg i 9 ;; b <~ rs msg (i + 9) 8 ;;
                 modlc inet (fun l => set_l_dtw (option_map (fun x => splice x j [sval b 8]) (l_dtw l))
                                     (set_l_dth (option_map (fun x => splice x j [sval a 9]) (l_dth l)) l)) ;;;
                 ret (i + 17)%nat
               else ret i) ;;
         eachM (map i_sat loc) (fun sat i =>
           d <~ rs msg i sz ;;
           modlc inet (app_stec sat j (sval d sz)) ;;;
           ret (i + sz)%nat) i) (combine (seq 0 ng) v) 0 i1 s1 Hx1 ltac:(rewrite <- Henc; exact Hat)) as [H1 H2].
  { intros j [j' p] i' s' Hn Hs Hat'. cbn [Nat.add].
    destruct (nth_error_combine _ _ _ _ _ Hn) as [Hn1 Hn2].
    assert (Hj : (j < ng)%nat) by (unfold ng; apply nth_error_Some; congruence).
    assert (j' = j).
    { apply nth_error_nth with (d := 0%nat) in Hn1. rewrite seq_nth in Hn1 by exact Hj. lia. }
    subst j'.
    rewrite Forall_forall in Hv. destruct (Hv p (nth_error_In _ _ Hn2)) as (Hv1 & Hv2 & Hv3 & Hv4).
    apply grid_pt_ok; auto. lia. }
  split.
  - unfold decode_cssr_grid. apply (mbind_head false h); auto. intros mi. cbv beta iota. cbn [h_udi h_iod].
    rewrite iod_check by assumption. unfold hd_iod. rewrite Eh, Z.eqb_refl. cbn [negb].
    rewrite mbind_ask, Hns. steps.
    rewrite mbind_guard by (apply Nat.ltb_lt; lia).
    rewrite (mbind_raw _ m) by (first [eapply At_pos; [exact Ha5|len; lia] | exact Hm]). cbv beta. steps.
    rewrite (mbind_local its) by (first [exact Hxh|exact Hm]). cbv beta.
    rewrite map_length, sel_length by exact Hm. steps.
    destruct (hd_env false h s) as (_ & _ & Hg & _).
    destruct (s_grid s) as [g|] eqn:Eg; [|contradiction].
    rewrite (mbind_lift _ g) by exact Hg. steps.
    fold sz loc. rewrite Nat2Z.id. destruct q as [q1 q2]. cbn [fst snd] in *. fold ng. fold s1.
    unfold i1 in H1. rewrite <- Hcl in H1. fold ng in H1. rewrite (mbind_ok _ _ _ _ _ H1). cbv beta. steps.
    rewrite (mbind_ok _ _ _ _ _ (eachM_stamp inet tTROP loc _)). cbv beta.
    apply pair_eq; [reflexivity|]. apply some_eq, some_eq. rewrite <- Henc. unfold enc. len.
    fold sz. lia.
  - apply (eff_ctx its (fun it => stamp inet (i_sat it) tTROP)); [auto|]. exact H2.
Qed.

(* ---------- atmospheric message ---------- *)
Lemma trop_fn_ok t i s : wf_tropfn t -> At msg i (enc_tropfn t) ->
  trop_fn msg i s = (s, Some (val_tropfn t, (i + length (enc_tropfn t))%nat)).
Proof.
  intros (H0 & H1 & H2 & H3 & H4). unfold enc_tropfn, val_tropfn, trop_fn.
  intros Ha. at_split. steps.
  destruct (t_type t >? 0), (t_type t >? 1); at_split; steps; fin.
Qed.
Lemma unpack_s_ok w : (1 <= w)%nat -> forall v i, Forall (sb w) v -> At msg i (encs (bitsof w) v) ->
  unpack_s msg (length v) w i = Some v.
Proof.
  intros Hw. induction v as [|x v IH]; intros i Hv Ha; [reflexivity|].
  unfold encs in Ha. cbn [map concat] in Ha. apply At_app in Ha as [Ha1 Ha2]. rewrite bitsof_length in Ha2.
  inversion_clear Hv as [|? ? Hx Hv']. cbn [length unpack_s].
  rewrite (gets_val msg i w x) by auto. rewrite IH by auto. reflexivity.
Qed.
Lemma stec_sz_eq : stec_sz_t = res_sz.
Proof. reflexivity. Qed.
Lemma stec_sz_pos k : ub 2 k -> (1 <= res_sz k)%nat.
Proof.
  intros H. unfold ub in H. cbn in H. unfold res_sz.
  assert (E : k = 0 \/ k = 1 \/ k = 2 \/ k = 3) by lia. destruct E as [->|[->|[->| ->]]]; vm_compute; lia.
Qed.

Definition stec_dec (inet stec : Z) (ng : nat) (sat : Z) (i : nat) : M nat :=
         set_t0 inet sat tSTEC ;;;
         i <~ (if stec >? 0 then
                 cl <~ ru msg i 3 ;; va <~ ru msg (i + 3) 3 ;;
                 modlc inet (fun l => set_l_stec_q (zset sat (cl, va) (l_stec_q l)) l) ;;;
                 ret (i + 6)%nat
               else ret i) ;;
         i <~ (if Z.testbit stec 1 then
                 st <~ ru msg i 2 ;;
                 modlc inet (fun l => set_l_stype (zset sat st (l_stype l)) l) ;;;
                 '(ci, i) <~ decode_stec_coeff msg st (i + 2) ;;
                 modlc inet (fun l => set_l_ci (ozset sat ci (l_ci l)) l) ;;;
                 ret i
               else ret i) ;;
         if Z.testbit stec 0 then
           sz_idx <~ ru msg i 2 ;;
           let sz := stec_sz_t sz_idx in
           modlc inet (fun l => set_l_s_sz (zset sat (Z.of_nat sz) (l_s_sz l)) l) ;;;
           v <~ lift (unpack_s msg ng sz (i + 2)) ;;
           modlc inet (fun l => set_l_dstec (zset sat (np_arr (map (fun x => sval x sz) v)) (l_dstec l)) l) ;;;
           ret (i + 2 + sz * ng)%nat
         else ret i.

Lemma stecv_ok its inet stec ng it x i s : ctx its s ->
  wf_q (sv_q x) /\ ub 2 (sv_type x) /\ wf_coef (sv_c x) /\ ub 2 (sv_szi x) /\
                       length (sv_res x) = ng /\ Forall (sb (res_sz (sv_szi x))) (sv_res x) ->
  At msg i (enc_stecv stec x) ->
  stec_dec inet stec ng (i_sat it) i s = (stecv_eff inet stec it x s, Some (i + length (enc_stecv stec x))%nat) /\
  ctx its (stecv_eff inet stec it x s).
Proof.
  intros Hs (Hq & Ht & Hk & Hz & Hl & Hr) Ha. unfold enc_stecv in *.
  destruct x as [[q1 q2] ty k szi res]. cbn [sv_q sv_type sv_c sv_szi sv_res fst snd] in *. destruct Hq as [Hq1 Hq2].
  cbn [fst snd] in *.
  apply At_app in Ha as [Ha1 Ha]. apply At_app in Ha as [Ha2 Ha3].
  unfold stecv_eff, stec_dec. rewrite stec_sz_eq. cbn [sv_q sv_type sv_c sv_szi sv_res].
  pose (sA := stamp inet (i_sat it) tSTEC s).
  pose (sB := if stec >? 0 then updlc inet (fun l => set_l_stec_q (zset (i_sat it) (q1, q2) (l_stec_q l)) l) sA else sA).
  pose (sC := if Z.testbit stec 1 then
      updlc inet (fun l => set_l_ci (ozset (i_sat it) (val_coef ty k) (l_ci l)) l)
      (updlc inet (fun l => set_l_stype (zset (i_sat it) ty (l_stype l)) l) sB) else sB).
  set (w1 := if stec >? 0 then bitsof 3 q1 ++ bitsof 3 q2 else []) in *.
  set (w2 := if Z.testbit stec 1 then bitsof 2 ty ++ enc_coef ty k else []) in *.
  set (w3 := if Z.testbit stec 0 then bitsof 2 szi ++ encs (bitsof (res_sz szi)) res else []) in *.
  assert (HB : ctx its sB) by (unfold sB; destruct (stec >? 0); exact Hs).
  assert (HC : ctx its sC) by (unfold sC; destruct (Z.testbit stec 1); exact HB).
  assert (E1 : (if stec >? 0 then
                 cl <~ ru msg i 3 ;; va <~ ru msg (i + 3) 3 ;;
                 modlc inet (fun l => set_l_stec_q (zset (i_sat it) (cl, va) (l_stec_q l)) l) ;;;
                 ret (i + 6)%nat
               else ret i) sA = (sB, Some (i + length w1)%nat)).
  { unfold sB, w1 in *. destruct (stec >? 0).
    - at_split. steps. fin.
    - fin. }
  assert (E2 : (if Z.testbit stec 1 then
                 st <~ ru msg (i + length w1) 2 ;;
                 modlc inet (fun l => set_l_stype (zset (i_sat it) st (l_stype l)) l) ;;;
                 '(ci, i) <~ decode_stec_coeff msg st ((i + length w1) + 2) ;;
                 modlc inet (fun l => set_l_ci (ozset (i_sat it) ci (l_ci l)) l) ;;;
                 ret i
               else ret (i + length w1)%nat) sB = (sC, Some (i + length w1 + length w2)%nat)).
  { unfold sC, w2 in *. destruct (Z.testbit stec 1).
    - apply At_app in Ha2 as [Hb1 Hb2]. steps. rewrite bitsof_length in Hb2.
      rewrite (mbind_ok _ _ _ _ _ (coeff_ok ty k _ _ Hk Hb2)). cbv beta iota. steps. fin.
    - fin. }
  split.
  2:{ unfold sC, sB in HC. destruct (Z.testbit stec 0); exact HC. }
  rewrite mbind_set_t0. fold sA. rewrite (mbind_ok _ _ _ _ _ E1). cbv beta. rewrite (mbind_ok _ _ _ _ _ E2). cbv beta.
  fold sB. fold sC. unfold w3 in *. destruct (Z.testbit stec 0).
  - apply At_app in Ha3 as [Hb1 Hb2]. steps. rewrite bitsof_length in Hb2.
    rewrite (mbind_lift _ res).
    2:{ rewrite <- Hl. apply unpack_s_ok; auto. now apply stec_sz_pos. }
    steps. unfold ret. apply pair_eq; [reflexivity|]. apply some_eq. len.
    rewrite (encs_const_len (bitsof (res_sz szi)) (res_sz szi)) by (intros; apply bitsof_length). lia.
  - fin.
Qed.

Lemma testbit_flag1 fn rs_ : Z.testbit (trop_flag fn rs_) 1 = match fn with Some _ => true | None => false end.
Proof. destruct fn, rs_; reflexivity. Qed.
Lemma testbit_flag0 fn rs_ : Z.testbit (trop_flag fn rs_) 0 = match rs_ with Some _ => true | None => false end.
Proof. destruct fn, rs_; reflexivity. Qed.
Lemma flag_ub fn rs_ : ub 2 (trop_flag fn rs_).
Proof. unfold ub. destruct fn, rs_; cbn; lia. Qed.

Lemma atmos_ok its h inet ng q fn rs_ stec m v : c_has c = false ->
  ok its (CAtmos h inet ng q fn rs_ stec m v) (decode_cssr_atmos c msg).
Proof.
  intros Eh i s Hx (Hh & Hiod & (Hi & Hm & Hp) & Hng & (Hq1 & Hq2) & Hfn & Hrs & Hgr & Hst & Hl & Hv) Ha. cbn [enc_body] in *.
  pose proof (flag_ub fn rs_) as Hfl. pose proof (testbit_flag1 fn rs_) as Hb1. pose proof (testbit_flag0 fn rs_) as Hb0.
  set (trop := trop_flag fn rs_) in *.
  apply At_app in Ha as [Ha1 Ha]. apply At_app in Ha as [Ha2 Ha]. apply At_app in Ha as [Ha3 Ha].
  apply At_app in Ha as [Ha4 Ha]. apply At_app in Ha as [Ha5 Ha]. apply At_app in Ha as [Ha6 Ha].
  apply At_app in Ha as [Ha7 Ha]. apply At_app in Ha as [Ha8 Ha]. apply At_app in Ha as [Ha9 Ha].
  set (w6 := if trop >? 0 then bitsof 3 (fst q) ++ bitsof 3 (snd q) else []) in *.
  set (w7 := match fn return list bool with Some t => enc_tropfn t | None => [] end) in *.
  set (w8 := match rs_ with
       | Some r => bitsof 1 (r_szf r) ++ bitsof 4 (r_ofst r) ++ encs (bitsof (res_w r)) (r_v r)
       | None => [] end) in *.
  pose (L := (i + length (enc_mh c false h))%nat).
  assert (Hxh : ctx its (hd_eff c false h s)) by now apply hd_ctx.
  pose (s1 := updlc inet (fun l => set_l_flg_stec stec (set_l_flg_trop trop (set_l_ng (Z.of_nat ng) l)))
       (set_s_flg_net true (hd_eff c false h s))).
  assert (Hx1 : ctx its s1) by exact Hxh.
  assert (Hg1 : s_grid s1 = s_grid s) by exact (proj1 (proj2 (proj2 (hd_env false h s)))).
  pose (s2 := when (trop >? 0) (fun s => udi_eff tTROP (m_udi h) (updlc inet (set_l_trop_q (Some q)) s)) s1).
  assert (E2 : (if trop >? 0 then
          cl <~ ru msg (L + 15) 3 ;; va <~ ru msg (L + 15 + 3) 3 ;;
          modlc inet (set_l_trop_q (Some (cl, va))) ;;;
          set_udi tTROP (m_udi h) ;;;
          g <~ ask s_grid ;; nids <~ lift g ;; _ <~ lift (guard (existsb (Z.eqb inet) nids)) ;;
          ret (L + 15 + 6)%nat
        else ret (L + 15)%nat) s1 = (s2, Some (L + 15 + length w6)%nat)).
  { unfold s2, w6 in *. destruct (trop >? 0) eqn:Et; cbn [when].
    - apply Z.gtb_lt in Et. destruct (Hgr ltac:(lia)) as (g & Eg & Hin). apply At_app in Ha6 as [Hc1 Hc2].
      unfold L in *. steps. change (s_grid (udi_eff tTROP (m_udi h) (updlc inet (set_l_trop_q (Some (fst q, snd q))) s1))) with (s_grid s1).
      rewrite (mbind_lift _ g) by congruence.
      rewrite mbind_guard by (apply existsb_exists; exists inet; split; [exact Hin|apply Z.eqb_refl]).
      destruct q. fin.
    - fin. }
  assert (Hx2 : ctx its s2) by (unfold s2; apply when_ctx; [exact Hx1|auto]).
  pose (f := option_map val_tropfn fn).
  pose (s3 := updlc inet (set_l_ct (Some (CtVal None 0))) s2).
  pose (s4 := match f with Some t => updlc inet (set_l_ct (Some (CtVal (Some t) 0))) s3 | None => s3 end).
  assert (E4 : (if Z.testbit trop 1 then
      '(t00, t01, t10, t11, i) <~ trop_fn msg (L + 15 + length w6) ;;
      modlc inet (set_l_ct (Some (CtVal (Some (t00, t01, t10, t11)) 0))) ;;;
      ret (Some (t00, t01, t10, t11), i)
    else ret (None, (L + 15 + length w6)%nat)) s3 = (s4, Some (f, (L + 15 + length w6 + length w7)%nat))).
  { rewrite Hb1. unfold s4, f, w7 in *. destruct fn as [t|]; cbn [option_map].
    - assert (Hc7 : At msg (L + 15 + length w6)%nat (enc_tropfn t)) by (eapply At_pos; [exact Ha7|unfold L; len; lia]).
      rewrite (mbind_ok _ _ _ _ _ (trop_fn_ok t _ _ Hfn Hc7)). cbv beta.
      destruct (val_tropfn t) as [[[t00 t01] t10] t11]. cbv beta iota. steps. fin.
    - fin. }
  assert (Hx4 : ctx its s4) by (unfold s4; destruct f; exact Hx2).
  pose (s5 := match rs_ with
               | Some r => updlc inet (set_l_dtw (Some (map (fun x => sval x (res_w r)) (r_v r))))
                             (updlc inet (set_l_ct (Some (CtVal f (r_ofst r)))) s4)
               | None => s4 end).
  pose (P8 := (L + 15 + length w6 + length w7)%nat).
  assert (E5 : (if Z.testbit trop 0 then
      szf <~ ru msg P8 1 ;; ofst <~ ru msg (P8 + 1) 4 ;;
      let i := (P8 + 5)%nat in
      modlc inet (set_l_ct (Some (CtVal f ofst))) ;;;
      let sz := if szf =? 0 then 6%nat else 8%nat in
      v <~ lift (unpack_s msg ng sz i) ;;
      modlc inet (set_l_dtw (Some (map (fun x => sval x sz) v))) ;;;
      ret (i + sz * ng)%nat
    else ret P8) s4 = (s5, Some (P8 + length w8)%nat)).
  { rewrite Hb0. unfold s5, w8 in *. destruct rs_ as [r|].
    - destruct Hrs as (Hr1 & Hr2 & Hr3 & Hr4).
      assert (Hc8 : At msg P8 (bitsof 1 (r_szf r) ++ bitsof 4 (r_ofst r) ++ encs (bitsof (res_w r)) (r_v r)))
        by (eapply At_pos; [exact Ha8|unfold P8, L; len; lia]).
      apply At_app in Hc8 as [Hd1 Hd2]. apply At_app in Hd2 as [Hd2 Hd3].
      steps. cbv zeta. steps. fold (res_w r).
      rewrite (mbind_lift _ (r_v r)).
      2:{ rewrite <- Hr3. apply unpack_s_ok; auto; [unfold res_w; destruct (r_szf r =? 0); lia|].
          eapply At_pos; [exact Hd3|len; lia]. }
      steps. unfold ret. apply pair_eq; [reflexivity|]. apply some_eq. len.
      rewrite (encs_const_len (bitsof (res_w r)) (res_w r)) by (intros; apply bitsof_length). lia.
    - fin. }
  assert (Hx5 : ctx its s5) by (unfold s5; destruct rs_; exact Hx4).
  pose (P9 := (P8 + length w8)%nat).
  pose (s6 := when (Z.testbit stec 0) (updlc inet (fun l => set_l_s_sz [] (set_l_dstec [] l)))
     (when (Z.testbit stec 1) (updlc inet (fun l => set_l_stype [] (set_l_ci (Some []) l)))
     (udi_eff tSTEC (m_udi h)
     (updlc inet (fun l => set_l_stec_q [] (set_l_nsat_n (Z.of_nat (cnt m)) (set_l_sat_n (map i_sat (sel m its)) l)))
     (updlc inet (set_l_netmask (bval m)) s5))))).
  assert (Hx6 : ctx its s6).
  { unfold s6. apply when_ctx; [|auto]. apply when_ctx; [|auto]. exact Hx5. }
  destruct (eachM_items (ctx its)
     (fun x => wf_q (sv_q x) /\ ub 2 (sv_type x) /\ wf_coef (sv_c x) /\ ub 2 (sv_szi x) /\
                       length (sv_res x) = ng /\ Forall (sb (res_sz (sv_szi x))) (sv_res x))
     (enc_stecv stec) (stecv_eff inet stec) (stec_dec inet stec ng) (sel m its) v (P9 + length its)%nat s6) as [H1 H2]; auto.
  { rewrite sel_length by exact Hm. exact Hl. }
  { eapply At_pos; [exact Ha|unfold P9, P8, L; len; lia]. }
  { intros it y i' s' Hy Hs' Hat'. now apply (stecv_ok its inet stec ng it y i' s'). }
  split.
  - unfold decode_cssr_atmos. apply (mbind_head false h); auto. intros mi. cbv beta iota. cbn [h_udi h_iod].
    rewrite iod_check by assumption. unfold hd_iod. rewrite Eh, Z.eqb_refl. cbn [negb]. steps.
    fold L. rewrite Nat2Z.id. fold s1. rewrite (mbind_ok _ _ _ _ _ E2). cbv beta. steps. fold s3.
    rewrite (mbind_ok _ _ _ _ _ E4). cbv beta iota. fold P8. rewrite (mbind_ok _ _ _ _ _ E5). cbv beta.
    rewrite mbind_ask. rewrite (proj1 Hx5). rewrite mbind_guard by (apply Nat.ltb_lt; lia).
    rewrite (mbind_raw _ m) by (first [eapply At_pos; [exact Ha9|unfold P9, P8, L; len; lia] | exact Hm]). cbv beta. steps.
    rewrite (mbind_local its) by (first [exact Hx5|exact Hm]). cbv beta.
    rewrite map_length, sel_length by exact Hm. steps.
    rewrite (mbind_whenM _ _ (updlc inet (fun l => set_l_stype [] (set_l_ci (Some []) l)))) by reflexivity. cbv beta.
    rewrite (mbind_whenM _ _ (updlc inet (fun l => set_l_s_sz [] (set_l_dstec [] l)))) by reflexivity. cbv beta.
    fold s6. fold P9. change (fun sat i => stec_dec inet stec ng sat i) with (stec_dec inet stec ng).
    erewrite mbind_ok by exact H1. cbv beta.
    rewrite (mbind_whenM _ _ (fun s => stamp inet 0 tTROP (flag_eff inet tTROP s))).
    2:{ rewrite mbind_or_cstat by (vm_compute; discriminate). reflexivity. }
    cbv beta.
    rewrite (mbind_whenM _ _ (flag_eff inet tSTEC)) by (apply or_cstat_eff; vm_compute; discriminate).
    cbv beta. unfold ret. apply pair_eq; [reflexivity|]. apply some_eq, some_eq. unfold P9, P8, L.
    clear - Hm. len. fold w6. lia.
  - change (ctx its (when (stec >? 0) (flag_eff inet tSTEC) (when (trop >? 0) (fun s => stamp inet 0 tTROP (flag_eff inet tTROP s))
       (eff2 (stecv_eff inet stec) (sel m its) v s6)))).
    apply when_ctx; [|auto]. apply when_ctx; [|auto]. exact H2.
Qed.
End C.
