(** What a user sees after a compact-SSR message: which satellites and signals a mask announces,
    and which value is stored for which satellite (and signal). *)
From Verif Require Import Base BaseFacts BitProofs SatModel SatSpec SatProofs CssrModel CssrSpec CssrFacts CssrCodec CssrMask CssrStream CssrStatus.
From Coq Require Import ZifyBool ZifyNat.
Open Scope Z_scope.

(* ---------- mask: satellites and signals ---------- *)
(** interface specification: constellation number -> constellation and PRN of mask position k+1 *)
Definition icd_sys (g : Z) : option (gnss * Z) :=
  match g with
  | 0 => Some (GPS, 0) | 1 => Some (GLO, 0) | 2 => Some (GAL, 0) | 3 => Some (BDS, 0)
  | 4 => Some (QZS, 192) | 7 => Some (BDS, 18) | 5 => Some (SBS, 119) | _ => None
  end.
Definition icd_sats (b : gblk) : list (gnss * Z) :=
  match icd_sys (gb_id b) with
  | Some (s, o) => map (fun k => (s, k + o)) (sel (gb_sv b) (zs 1 40))
  | None => []
  end.
Definition icd_sigs (b : gblk) : list (list rsig) :=
  match gb_cell b with
  | None => map (fun _ => blk_sigs b) (sel (gb_sv b) (zs 1 40))
  | Some rows => map (fun r => sel r (blk_sigs b)) rows
  end.
Definition supported (b : gblk) : Prop := icd_sys (gb_id b) <> None /\ gb_id b <> 5.

Lemma blk_sigs_len b : wf_blk b -> length (icd_sigs b) = length (sel (gb_sv b) (zs 1 40)).
Proof.
  intros (_ & H1 & _ & _ & _ & H2). unfold icd_sigs. destruct (gb_cell b) as [rows|]; rewrite map_length; [|reflexivity].
  destruct H2 as (H2 & _). rewrite H2. symmetry. apply sel_length. now rewrite zs_length.
Qed.
Lemma map_combine_fst {A B C} (f : A -> C) : forall (l : list A) (r : list B), length l = length r ->
  map (fun p => f (fst p)) (combine l r) = map f l.
Proof. induction l as [|a l IH]; intros [|b r] H; try discriminate; [reflexivity|]. cbn. f_equal. apply IH. now injection H. Qed.
Lemma map_combine_snd {A B} : forall (l : list A) (r : list B), length l = length r -> map snd (combine l r) = r.
Proof. induction l as [|a l IH]; intros [|b r] H; try discriminate; [reflexivity|]. cbn. f_equal. apply IH. now injection H. Qed.

Lemma blk_items_sats b : wf_blk b -> supported b ->
  Forall (fun p => owns (fst p) (snd p)) (icd_sats b) ->
  map (fun it => sat2prn (i_sat it)) (blk_items b) = icd_sats b /\ map i_sig (blk_items b) = icd_sigs b /\
  map (fun it => i_sys it) (blk_items b) = map fst (icd_sats b).
Proof.
  intros Hw [Hs H5] Ho. pose proof (blk_sigs_len b Hw) as Hl.
  unfold blk_items. fold (icd_sigs b). rewrite !map_map.
  split; [|split].
  - rewrite (map_ext _ (fun p : Z * list rsig => sat2prn (prn2sat (gnss2sys (gb_id b)) (adj_prn (gb_id b) (fst p)))))
      by (intros [p sg]; reflexivity).
    rewrite (map_combine_fst (fun p => sat2prn (prn2sat (gnss2sys (gb_id b)) (adj_prn (gb_id b) p)))) by now symmetry.
    unfold icd_sats in *. destruct (icd_sys (gb_id b)) as [[g o]|] eqn:Eg; [|congruence].
    rewrite Forall_map, Forall_forall in Ho. apply map_ext_in. intros p Hp. specialize (Ho p Hp). cbn [fst snd] in Ho.
    assert (E : gnss2sys (gb_id b) = g /\ adj_prn (gb_id b) p = p + o).
    { unfold icd_sys in Eg. revert Eg H5. generalize (gb_id b). intros z Ez H5.
      assert (D : z = 0 \/ z = 1 \/ z = 2 \/ z = 3 \/ z = 4 \/ z = 7 \/ z = 5 \/ ~ In z [0;1;2;3;4;5;7]) by (cbn; lia).
      repeat (destruct D as [->|D]; [try (injection Ez as <- <-; cbn; split; [reflexivity|lia]); lia|]).
      exfalso. destruct z as [|q|q]; try discriminate; [apply D; cbn; auto|].
      repeat (destruct q as [q|q|]; try discriminate; try (apply D; cbn; tauto)). }
    destruct E as [-> ->]. now apply sat2prn_prn2sat.
  - rewrite (map_ext _ snd) by (intros [p sg]; reflexivity). apply map_combine_snd. now symmetry.
  - rewrite (map_ext _ (fun p : Z * list rsig => gnss2sys (gb_id b))) by (intros [p sg]; reflexivity).
    rewrite (map_combine_fst (fun _ : Z => gnss2sys (gb_id b))) by now symmetry.
    unfold icd_sats. destruct (icd_sys (gb_id b)) as [[g o]|] eqn:Eg; [|congruence]. rewrite map_map. cbn [fst].
    apply map_ext. intros _. unfold icd_sys in Eg. revert Eg. generalize (gb_id b). intros z Ez.
    destruct z as [|q|q]; try discriminate; [now injection Ez as <- <-|].
    repeat (destruct q as [q|q|]; try discriminate; try (now injection Ez as <- <-)).
Qed.

Lemma items_sats bl : Forall wf_blk bl -> Forall supported bl ->
  Forall (fun p => owns (fst p) (snd p)) (concat (map icd_sats bl)) ->
  map (fun it => sat2prn (i_sat it)) (concat (map blk_items bl)) = concat (map icd_sats bl) /\
  map i_sig (concat (map blk_items bl)) = concat (map icd_sigs bl).
Proof.
  induction bl as [|b bl IH]; intros Hw Hs Ho; [auto|]. inversion_clear Hw. inversion_clear Hs. cbn [map concat] in *.
  apply Forall_app in Ho as [Ho1 Ho2]. destruct (blk_items_sats b) as (A & B & _); auto. destruct IH as [C D]; auto.
  rewrite !map_app, A, B, C, D. auto.
Qed.

Lemma mask_iod c h bl s : s_iodssr (mask_eff c h bl s) = hd_iod c h s.
Proof.
  assert (Hi : forall g l s, s_iodssr (eff (item_eff g) l s) = s_iodssr s).
  { intros g l. induction l as [|x l IH]; intros t; [reflexivity|].
    change (eff (item_eff g) (x :: l) t) with (eff (item_eff g) l (item_eff g x t)). rewrite IH. reflexivity. }
  assert (Hb : forall l s, s_iodssr (eff (blk_eff c) l s) = s_iodssr s).
  { induction l as [|x l IH]; intros t; [reflexivity|].
    change (eff (blk_eff c) (x :: l) t) with (eff (blk_eff c) l (blk_eff c x t)). rewrite IH.
    unfold blk_eff. cbv zeta. match goal with |- context [eff (item_eff ?g) ?l0 ?t0] => pose proof (Hi g l0 t0) as E; set (u := eff (item_eff g) l0 t0) in * end.
    destruct (c_has c); exact E. }
  unfold mask_eff. cbv zeta. cbn [stamp]. unfold stamp, flag_eff, updlc. cbn [s_iodssr set_s_lc]. rewrite Hb. cbn [s_iodssr set_s_iodssr].
  unfold hd_iod. destruct (hd_env c true h s) as (E & _). now rewrite E.
Qed.

Theorem mask_user c msg its h bl i s :
  wf_mh c true h -> (length bl < 16)%nat -> Forall wf_blk bl -> Forall supported bl ->
  Forall (fun p => owns (fst p) (snd p)) (concat (map icd_sats bl)) -> NoDup (concat (map icd_sats bl)) ->
  At msg i (enc_body c its (CMask h bl)) ->
  exists s', decode_cssr_mask c msg i s = (s', Some (Some (i + length (enc_body c its (CMask h bl)))%nat)) /\
    map sat2prn (s_sat_n s') = concat (map icd_sats bl) /\ NoDup (s_sat_n s') /\
    s_nsat_n s' = length (concat (map icd_sats bl)) /\
    s_nsig_n s' = map (@length rsig) (concat (map icd_sigs bl)) /\
    map (fun sat => zget sat (s_sig_n s')) (s_sat_n s') = map Some (concat (map icd_sigs bl)) /\
    s_iodssr s' = hd_iod c h s /\ ctx (concat (map blk_items bl)) s'.
Proof.
  intros Hh Hl Hw Hs Ho Hn Ha. destruct (items_sats bl Hw Hs Ho) as [A B].
  assert (Hn' : NoDup (map i_sat (concat (map blk_items bl)))).
  { rewrite <- A in Hn. rewrite <- map_map in Hn. now apply NoDup_map_inv in Hn. }
  exists (mask_eff c h bl s). split; [now apply mask_ok|].
  pose proof (mask_ctx c h bl s Hw Hn') as Hx. destruct Hx as (X1 & X2 & X3 & X4 & X5).
  rewrite X1, X2, X4. rewrite map_map, A. rewrite map_map.
  repeat split; auto.
  - rewrite <- A. now rewrite map_length.
  - rewrite <- B, map_map. reflexivity.
  - rewrite <- B, map_map. apply map_ext_in. intros it Hin. rewrite Forall_forall in X5. now apply X5.
  - apply mask_iod.
Qed.

(* ---------- values ---------- *)
(** a fold of per-key writes with distinct keys leaves each key with its own value *)
Lemma eff2_lookup {X Y K V} (key : X -> K) (L : cst -> K -> option V) (P : cst -> Prop)
    (f : X -> Y -> cst -> cst) (g : X -> Y -> V) :
  (forall x y s, P s -> P (f x y s) /\ L (f x y s) (key x) = Some (g x y) /\
     forall k, k <> key x -> L (f x y s) k = L s k) ->
  forall xs ys s, NoDup (map key xs) -> P s ->
  P (eff2 f xs ys s) /\
  (forall j x y, nth_error xs j = Some x -> nth_error ys j = Some y -> L (eff2 f xs ys s) (key x) = Some (g x y)) /\
  (forall k, ~ In k (map key xs) -> L (eff2 f xs ys s) k = L s k).
Proof.
  intros Hf. induction xs as [|x xs IH]; intros ys s Hn Hp.
  - split; [exact Hp|]. split; [intros [|j] ? ? H; discriminate H|reflexivity].
  - destruct ys as [|y ys].
    + split; [exact Hp|]. split; [intros [|j] ? ? ? H; discriminate H|reflexivity].
    + change (eff2 f (x :: xs) (y :: ys) s) with (eff2 f xs ys (f x y s)).
      inversion_clear Hn as [|? ? Hn1 Hn2]. destruct (Hf x y s Hp) as (F1 & F2 & F3).
      destruct (IH ys (f x y s) Hn2 F1) as (I1 & I2 & I3). split; [exact I1|]. split.
      * intros [|j] x' y' Hx Hy; cbn in Hx, Hy.
        -- injection Hx as <-. injection Hy as <-. rewrite I3 by assumption. exact F2.
        -- now apply (I2 j).
      * intros k Hk. cbn in Hk. rewrite I3 by tauto. apply F3. intros ->. apply Hk. now left.
Qed.

(** stored corrections of network [n] *)
Definition iode_of (s : cst) (n sat : Z) : option Z :=
  match l_iode (lcat s n) with Some d => zget sat d | None => None end.
Definition dorb_of (s : cst) (n sat : Z) : option orb3 :=
  match l_dorb (lcat s n) with Some d => zget sat d | None => None end.
Definition dclk_of (s : cst) (n sat : Z) : option (option Z) :=
  match l_dclk (lcat s n) with Some d => zget sat d | None => None end.
Definition ura_of (s : cst) (n sat : Z) : option (Z * Z) :=
  match l_ura (lcat s n) with Some d => zget sat d | None => None end.
Definition ci_of (s : cst) (n sat : Z) : option (list (option Z)) :=
  match l_ci (lcat s n) with Some d => zget sat d | None => None end.
Definition cbias_of (s : cst) (n sat : Z) (r : rsig) : option (option Z) :=
  match zget sat (l_cbias (lcat s n)) with Some d => rget r d | None => None end.
Definition pbias_of (s : cst) (n sat : Z) (r : rsig) : option (option Z) :=
  match zget sat (l_pbias (lcat s n)) with Some d => rget r d | None => None end.
Definition di_of (s : cst) (n sat : Z) (r : rsig) : option Z :=
  match zget sat (l_di (lcat s n)) with Some d => rget r d | None => None end.

Definition nets (s : cst) : Prop := length (s_lc s) = 33%nat.
Lemma lcat_eff k f s n : nets s -> 0 <= k < 33 -> 0 <= n ->
  lcat (updlc k f s) n = if n =? k then f (lcat s n) else lcat s n.
Proof. unfold nets. intros. apply lcat_updlc; lia. Qed.
Lemma nets_updlc k f s : nets s -> nets (updlc k f s).
Proof. unfold nets. now rewrite len_updlc. Qed.
Lemma lcat_stamp k sat ct s n : nets s -> 0 <= k < 33 -> 0 <= n ->
  lcat (stamp k sat ct s) n = if n =? k then lc_t0 sat ct (s_time s) (lcat s n) else lcat s n.
Proof. intros. unfold stamp. now apply lcat_eff. Qed.
Lemma lcat_flag k ct s n : nets s -> 0 <= k < 33 -> 0 <= n ->
  lcat (flag_eff k ct s) n = if n =? k then set_l_cstat (Z.lor (l_cstat (lcat s n)) (2 ^ ct)) (lcat s n) else lcat s n.
Proof. intros. unfold flag_eff. rewrite lcat_eff by assumption. reflexivity. Qed.
Lemma lcat_set s s' n : s_lc s' = s_lc s -> lcat s' n = lcat s n.
Proof. unfold lcat. now intros ->. Qed.

(* orbit *)
Lemma orb_write c n it v s : nets s -> 0 <= n < 33 -> l_dorb (lcat s n) <> None -> l_iode (lcat s n) <> None ->
  let s' := orb_eff c n it v s in
  nets s' /\ l_dorb (lcat s' n) <> None /\ l_iode (lcat s' n) <> None /\
  iode_of s' n (i_sat it) = Some (o_iode v) /\
  dorb_of s' n (i_sat it) = Some (neg_if (c_has c) (c_sval c (o_x v) (b_o0 c)),
                                  neg_if (c_has c) (c_sval c (o_y v) (b_o1 c)),
                                  neg_if (c_has c) (c_sval c (o_z v) (b_o2 c))) /\
  (forall k, k <> i_sat it -> iode_of s' n k = iode_of s n k /\ dorb_of s' n k = dorb_of s n k) /\
  (forall k, dclk_of s' n k = dclk_of s n k).
Proof.
  intros Hn Hr H1 H2 s'. subst s'. unfold orb_eff, iode_of, dorb_of, dclk_of. cbv zeta.
  split; [now do 2 apply nets_updlc|].
  rewrite lcat_stamp by (first [apply nets_updlc; assumption|lia]). rewrite lcat_eff by (assumption || lia).
  rewrite Z.eqb_refl. cbn [l_dorb l_iode l_dclk lc_t0 set_l_t0 set_l_dorb set_l_iode].
  destruct (l_dorb (lcat s n)) as [d|]; [|congruence]. destruct (l_iode (lcat s n)) as [e|]; [|congruence].
  cbn [ozset option_map]. repeat split; try discriminate; intros; rewrite ?zget_zset_same, ?zget_zset_other by congruence; reflexivity.
Qed.
Lemma clk_write c n it v s : nets s -> 0 <= n < 33 -> l_dclk (lcat s n) <> None ->
  let s' := clk_eff c n it v s in
  nets s' /\ l_dclk (lcat s' n) <> None /\ s_dcm s' = s_dcm s /\
  dclk_of s' n (i_sat it) = Some (option_map (Z.mul (mult_of c it s)) (c_sval c v (b_clk c))) /\
  (forall k, k <> i_sat it -> dclk_of s' n k = dclk_of s n k) /\
  (forall k, iode_of s' n k = iode_of s n k /\ dorb_of s' n k = dorb_of s n k).
Proof.
  intros Hn Hr H1 s'. subst s'. unfold clk_eff, iode_of, dorb_of, dclk_of. cbv zeta.
  split; [now do 2 apply nets_updlc|].
  rewrite lcat_stamp by (first [apply nets_updlc; assumption|lia]). rewrite lcat_eff by (assumption || lia).
  rewrite Z.eqb_refl. cbn [l_dclk l_iode l_dorb lc_t0 set_l_t0 set_l_dclk].
  destruct (l_dclk (lcat s n)) as [d|]; [|congruence].
  cbn [ozset option_map]. repeat split; try discriminate; intros; rewrite ?zget_zset_same, ?zget_zset_other by congruence; reflexivity.
Qed.

(* messages *)
Definition orb3_of (c : cfg) (x : orbv) : orb3 :=
  (neg_if (c_has c) (c_sval c (o_x x) (b_o0 c)), neg_if (c_has c) (c_sval c (o_y x) (b_o1 c)),
   neg_if (c_has c) (c_sval c (o_z x) (b_o2 c))).

Lemma nets_hd c mask h s : nets s -> nets (hd_eff c mask h s).
Proof. unfold nets. now rewrite hd_lc. Qed.

Theorem orb_user c msg its h v i s : wf_cfg c -> ctx its s -> nets s -> NoDup (map i_sat its) ->
  wf_msg c its s (COrb h v) -> At msg i (enc_body c its (COrb h v)) ->
  exists s', decode_cssr_orb c msg i s = (s', Some (Some (i + length (enc_body c its (COrb h v)))%nat)) /\
  (forall j it x, nth_error its j = Some it -> nth_error v j = Some x ->
     iode_of s' 0 (i_sat it) = Some (o_iode x) /\ dorb_of s' 0 (i_sat it) = Some (orb3_of c x)) /\
  (forall k, ~ In k (map i_sat its) -> iode_of s' 0 k = None /\ dorb_of s' 0 k = None) /\
  (forall k, dclk_of s' 0 k = dclk_of s 0 k).
Proof.
  intros Hc Hx Hl Hn Hw Ha. destruct (orb_ok c msg Hc its h v i s Hx Hw Ha) as [H1 _].
  eexists. split; [exact H1|]. clear H1. cbn [msg_eff]. cbv zeta.
  match goal with |- context [eff2 (orb_eff c 0) its v ?t] => set (t0 := t) in * end.
  assert (Hl0 : nets t0) by (unfold t0; apply nets_updlc; exact (nets_hd c false h s Hl)).
  assert (El : lcat t0 0 = set_l_iode (Some []) (set_l_dorb (Some []) (lcat s 0))).
  { unfold t0. rewrite lcat_eff by (first [exact (nets_hd c false h s Hl)|lia]). rewrite Z.eqb_refl. do 2 f_equal.
    apply lcat_set. cbn. apply hd_lc. }
  destruct (eff2_lookup (K := Z) i_sat (fun s k => match iode_of s 0 k, dorb_of s 0 k with Some a, Some b => Some (a, b) | _, _ => None end)
     (fun s' => nets s' /\ l_dorb (lcat s' 0) <> None /\ l_iode (lcat s' 0) <> None /\ (forall k, iode_of s' 0 k = None <-> dorb_of s' 0 k = None) /\
        forall k, dclk_of s' 0 k = dclk_of s 0 k)
     (orb_eff c 0) (fun _ x => (o_iode x, orb3_of c x))) with (xs := its) (ys := v) (s := t0) as (A & B & C).
  { intros it x u (P1 & P2 & P3 & P4 & P5).
    destruct (orb_write c 0 it x u P1 ltac:(lia) P2 P3) as (Q1 & Q2 & Q3 & Q4 & Q5 & Q6 & Q7).
    split; [|split].
    - repeat (split; [assumption|]). split; [|intros; now rewrite Q7]. intros k. destruct (Z.eq_dec k (i_sat it)) as [->|Hk].
      + rewrite Q4, Q5. split; discriminate.
      + destruct (Q6 k Hk) as [-> ->]. apply P4.
    - rewrite Q4, Q5. reflexivity.
    - intros k Hk. destruct (Q6 k Hk) as [-> ->]. reflexivity. }
  { assumption. }
  { split; [assumption|]. unfold iode_of, dorb_of, dclk_of. rewrite El. cbn. repeat split; try discriminate. }
  set (u := eff2 (orb_eff c 0) its v t0) in *. destruct A as (A1 & A2 & A3 & A4 & A5).
  assert (Ei : forall k, iode_of (flag_eff 0 tORBIT (iodc_eff tORBIT (hd_iod c h s) u)) 0 k = iode_of u 0 k /\
                         dorb_of (flag_eff 0 tORBIT (iodc_eff tORBIT (hd_iod c h s) u)) 0 k = dorb_of u 0 k /\
                         dclk_of (flag_eff 0 tORBIT (iodc_eff tORBIT (hd_iod c h s) u)) 0 k = dclk_of u 0 k).
  { intros k. unfold iode_of, dorb_of, dclk_of. rewrite lcat_flag by (assumption || lia). rewrite Z.eqb_refl. auto. }
  split; [|split].
  - intros j it x Hj Hv. destruct (Ei (i_sat it)) as (-> & -> & _). specialize (B j it x Hj Hv).
    destruct (iode_of u 0 (i_sat it)), (dorb_of u 0 (i_sat it)); try discriminate. now injection B as -> ->.
  - intros k Hk. destruct (Ei k) as (-> & -> & _). specialize (C k Hk).
    unfold iode_of at 2 in C. rewrite El in C. cbn in C.
    destruct (iode_of u 0 k) eqn:E1, (dorb_of u 0 k) eqn:E2; try discriminate; auto.
    + apply A4 in E2. congruence.
    + apply A4 in E1. congruence.
  - intros k. destruct (Ei k) as (_ & _ & ->). apply A5.
Qed.

Definition clk_val (c : cfg) (m : Z) (v : Z) : option Z := option_map (Z.mul m) (c_sval c v (b_clk c)).
Lemma clk_val_1 c v : clk_val c 1 v = c_sval c v (b_clk c).
Proof. unfold clk_val. destruct (c_sval c v (b_clk c)) as [z|]; cbn [option_map]; [|reflexivity]. f_equal. lia. Qed.

Theorem clk_user c msg its h v i s : wf_cfg c -> c_has c = false -> ctx its s -> nets s -> NoDup (map i_sat its) ->
  wf_msg c its s (CClk h [] v) -> At msg i (enc_body c its (CClk h [] v)) ->
  exists s', decode_cssr_clk c msg i s = (s', Some (Some (i + length (enc_body c its (CClk h [] v)))%nat)) /\
  (forall j it x, nth_error its j = Some it -> nth_error v j = Some x ->
     dclk_of s' 0 (i_sat it) = Some (c_sval c x (b_clk c))) /\
  (forall k, ~ In k (map i_sat its) -> dclk_of s' 0 k = None) /\
  (forall k, iode_of s' 0 k = iode_of s 0 k /\ dorb_of s' 0 k = dorb_of s 0 k).
Proof.
  intros Hc Eh Hx Hl Hn Hw Ha. destruct (clk_ok c msg Hc its h [] v i s Hx Hw Ha) as [H1 _].
  eexists. split; [exact H1|]. clear H1. cbn [msg_eff]. cbv zeta. rewrite Eh. cbn [when].
  match goal with |- context [eff2 (clk_eff c 0) its v ?t] => set (t0 := t) in * end.
  assert (Hl0 : nets t0) by (unfold t0; apply nets_updlc; exact (nets_hd c false h s Hl)).
  assert (El : lcat t0 0 = set_l_dclk (Some []) (lcat s 0)).
  { unfold t0. rewrite lcat_eff by (first [exact (nets_hd c false h s Hl)|lia]). rewrite Z.eqb_refl. f_equal.
    apply lcat_set. cbn. apply hd_lc. }
  destruct (eff2_lookup (K := Z) i_sat (fun s k => dclk_of s 0 k)
     (fun s' => nets s' /\ l_dclk (lcat s' 0) <> None /\ forall k, iode_of s' 0 k = iode_of s 0 k /\ dorb_of s' 0 k = dorb_of s 0 k)
     (clk_eff c 0) (fun _ x => c_sval c x (b_clk c))) with (xs := its) (ys := v) (s := t0) as (A & B & C).
  { intros it x u (P1 & P2 & P3).
    destruct (clk_write c 0 it x u P1 ltac:(lia) P2) as (Q1 & Q2 & _ & Q4 & Q5 & Q6).
    split; [|split].
    - repeat (split; [assumption|]). intros k. destruct (Q6 k) as [-> ->]. apply P3.
    - rewrite Q4. unfold mult_of. rewrite Eh. f_equal. apply clk_val_1.
    - assumption. }
  { assumption. }
  { split; [assumption|]. unfold iode_of, dorb_of. rewrite El. cbn. split; [discriminate|auto]. }
  set (u := eff2 (clk_eff c 0) its v t0) in *. destruct A as (A1 & A2 & A3).
  assert (Ei : lcat (flag_eff 0 tCLOCK (iodc_eff tCLOCK (hd_iod c h s) u)) 0 = set_l_cstat (Z.lor (l_cstat (lcat u 0)) (2 ^ tCLOCK)) (lcat u 0)).
  { rewrite lcat_flag by (assumption || lia). reflexivity. }
  split; [|split].
  - intros j it x Hj Hv. unfold dclk_of. rewrite Ei. exact (B j it x Hj Hv).
  - intros k Hk. unfold dclk_of. rewrite Ei. specialize (C k Hk). unfold dclk_of at 2 in C. rewrite El in C. exact C.
  - intros k. unfold iode_of, dorb_of. rewrite Ei. exact (A3 k).
Qed.

Theorem ura_user c msg its h v i s : c_has c = false -> ctx its s -> nets s -> NoDup (map i_sat its) ->
  wf_msg c its s (CUra h v) -> At msg i (enc_body c its (CUra h v)) ->
  exists s', decode_cssr_ura c msg i s = (s', Some (Some (i + length (enc_body c its (CUra h v)))%nat)) /\
  (forall j it x, nth_error its j = Some it -> nth_error v j = Some x -> ura_of s' 0 (i_sat it) = Some x) /\
  (forall k, ~ In k (map i_sat its) -> ura_of s' 0 k = None).
Proof.
  intros Eh Hx Hl Hn Hw Ha. destruct (ura_ok c msg its h v Eh i s Hx Hw Ha) as [H1 _].
  eexists. split; [exact H1|]. clear H1. cbn [msg_eff]. cbv zeta.
  match goal with |- context [eff2 ?f its v ?t] => set (t0 := t) in *; set (F := f) in * end.
  assert (Hl0 : nets t0) by (unfold t0; apply nets_updlc; exact (nets_hd c false h s Hl)).
  assert (El : lcat t0 0 = set_l_ura (Some []) (lcat s 0)).
  { unfold t0. rewrite lcat_eff by (first [exact (nets_hd c false h s Hl)|lia]). rewrite Z.eqb_refl. f_equal.
    apply lcat_set. cbn. apply hd_lc. }
  destruct (eff2_lookup (K := Z) i_sat (fun s k => ura_of s 0 k) (fun s' => nets s' /\ l_ura (lcat s' 0) <> None)
     F (fun _ x => x)) with (xs := its) (ys := v) (s := t0) as (A & B & C).
  { intros it x u (P1 & P2). unfold F, ura_of. split; [split|split].
    - now apply nets_updlc.
    - rewrite lcat_eff by (assumption || lia). rewrite Z.eqb_refl. cbn. destruct (l_ura (lcat u 0)); [discriminate|congruence].
    - rewrite lcat_eff by (assumption || lia). rewrite Z.eqb_refl. cbn. destruct (l_ura (lcat u 0)); [|congruence].
      cbn. apply zget_zset_same.
    - intros k Hk. rewrite lcat_eff by (assumption || lia). rewrite Z.eqb_refl. cbn. destruct (l_ura (lcat u 0)); [|congruence].
      cbn. apply zget_zset_other. congruence. }
  { assumption. }
  { split; [assumption|]. rewrite El. discriminate. }
  set (u := eff2 F its v t0) in *. destruct A as (A1 & A2).
  assert (Ei : l_ura (lcat (stamp 0 0 tURA (flag_eff 0 tURA u)) 0) = l_ura (lcat u 0)).
  { rewrite lcat_stamp by (first [apply nets_updlc; assumption|lia]). rewrite Z.eqb_refl. rewrite lcat_flag by (assumption || lia). reflexivity. }
  split.
  - intros j it x Hj Hv. unfold ura_of. rewrite Ei. exact (B j it x Hj Hv).
  - intros k Hk. unfold ura_of. rewrite Ei. specialize (C k Hk). unfold ura_of at 2 in C. rewrite El in C. exact C.
Qed.

(* biases: one dictionary per satellite *)
Definition sigd {Y V} (t : typ) (g : Y -> V) (sigs : list rsig) (l : list Y) (d : dict rsig V) : dict rsig V :=
  fold_left (fun d p => rset (toTyp (fst p) t) (g (snd p)) d) (combine sigs l) d.
Lemma sigd_get {Y V} t (g : Y -> V) : forall sigs l d, NoDup (map (fun r => toTyp r t) sigs) ->
  (forall j r y, nth_error sigs j = Some r -> nth_error l j = Some y -> rget (toTyp r t) (sigd t g sigs l d) = Some (g y)) /\
  (forall q, ~ In q (map (fun r => toTyp r t) sigs) -> rget q (sigd t g sigs l d) = rget q d).
Proof.
  induction sigs as [|r sigs IH]; intros l d Hn.
  - split; [intros [|j] ? ? H; discriminate H|reflexivity].
  - destruct l as [|y l]; [split; [intros [|j] ? ? ? H; discriminate H|reflexivity]|].
    inversion_clear Hn as [|? ? Hn1 Hn2].
    change (sigd t g (r :: sigs) (y :: l) d) with (sigd t g sigs l (rset (toTyp r t) (g y) d)).
    destruct (IH l (rset (toTyp r t) (g y) d) Hn2) as [I1 I2]. split.
    + intros [|j] r' y' Hr Hy; cbn in Hr, Hy; [|now apply (I1 j)].
      injection Hr as <-. injection Hy as <-. rewrite I2 by assumption. apply rget_rset_same.
    + intros q Hq. cbn in Hq. rewrite I2 by tauto. apply rget_rset_other. intros E. apply Hq. now left.
Qed.

Definition put2d {V} (sat : Z) (d : dict rsig V) (D : dict Z (dict rsig V)) := zset sat d D.
Lemma put2_get {V} sat r (v : V) D : zget sat (put2 sat r v D) = Some (rset r v (match zget sat D with Some e => e | None => [] end)).
Proof. unfold put2. apply zget_zset_same. Qed.
Lemma put2_other {V} sat r (v : V) D k : k <> sat -> zget k (put2 sat r v D) = zget k D.
Proof. intros. unfold put2. apply zget_zset_other. congruence. Qed.

(** code biases of one satellite *)
Lemma cb_sigs c n it : 0 <= n < 33 -> forall sigs l s d, nets s -> zget (i_sat it) (l_cbias (lcat s n)) = Some d ->
  let s' := eff2 (cb_eff c n it) sigs l s in
  nets s' /\ zget (i_sat it) (l_cbias (lcat s' n)) = Some (sigd TC (fun v => c_sval c v (b_cb c)) sigs l d) /\
  (forall k, k <> i_sat it -> zget k (l_cbias (lcat s' n)) = zget k (l_cbias (lcat s n))) /\
  l_pbias (lcat s' n) = l_pbias (lcat s n) /\ l_di (lcat s' n) = l_di (lcat s n).
Proof.
  intros Hr. induction sigs as [|r sigs IH]; intros l s d Hs Hd s'; subst s'.
  - cbn. auto.
  - destruct l as [|v l]; [cbn; auto|].
    change (eff2 (cb_eff c n it) (r :: sigs) (v :: l) s) with (eff2 (cb_eff c n it) sigs l (cb_eff c n it r v s)).
    change (sigd TC (fun v => c_sval c v (b_cb c)) (r :: sigs) (v :: l) d) with
      (sigd TC (fun v => c_sval c v (b_cb c)) sigs l (rset (toTyp r TC) (c_sval c v (b_cb c)) d)).
    assert (Hs1 : nets (cb_eff c n it r v s)) by (unfold cb_eff; now do 2 apply nets_updlc).
    assert (E : lcat (cb_eff c n it r v s) n = lc_t0 (i_sat it) tCBIAS (s_time s)
       (set_l_cbias (put2 (i_sat it) (toTyp r TC) (c_sval c v (b_cb c)) (l_cbias (lcat s n))) (lcat s n))).
    { unfold cb_eff. rewrite lcat_stamp by (first [apply nets_updlc; assumption|lia]). rewrite Z.eqb_refl.
      rewrite lcat_eff by (assumption || lia). rewrite Z.eqb_refl. reflexivity. }
    destruct (IH l _ (rset (toTyp r TC) (c_sval c v (b_cb c)) d) Hs1) as (A & B & C & D1 & D2).
    { rewrite E. cbn. rewrite put2_get, Hd. reflexivity. }
    split; [exact A|]. split; [exact B|]. rewrite D1, D2, E. split; [|auto].
    intros k Hk. rewrite C by assumption. rewrite E. cbn. now apply put2_other.
Qed.
Lemma pb_sigs c n it : 0 <= n < 33 -> forall sigs l s d e, nets s ->
  zget (i_sat it) (l_pbias (lcat s n)) = Some d -> zget (i_sat it) (l_di (lcat s n)) = Some e ->
  let s' := eff2 (pb_eff c n it) sigs l s in
  nets s' /\ zget (i_sat it) (l_pbias (lcat s' n)) = Some (sigd TL (fun p : Z * Z => c_sval c (fst p) (b_pb c)) sigs l d) /\
  zget (i_sat it) (l_di (lcat s' n)) = Some (sigd TL snd sigs l e) /\
  (forall k, k <> i_sat it -> zget k (l_pbias (lcat s' n)) = zget k (l_pbias (lcat s n)) /\ zget k (l_di (lcat s' n)) = zget k (l_di (lcat s n))) /\
  l_cbias (lcat s' n) = l_cbias (lcat s n).
Proof.
  intros Hr. induction sigs as [|r sigs IH]; intros l s d e Hs Hd He s'; subst s'.
  - cbn. auto 10.
  - destruct l as [|v l]; [cbn; auto 10|].
    change (eff2 (pb_eff c n it) (r :: sigs) (v :: l) s) with (eff2 (pb_eff c n it) sigs l (pb_eff c n it r v s)).
    change (sigd TL (fun p : Z * Z => c_sval c (fst p) (b_pb c)) (r :: sigs) (v :: l) d) with
      (sigd TL (fun p : Z * Z => c_sval c (fst p) (b_pb c)) sigs l (rset (toTyp r TL) (c_sval c (fst v) (b_pb c)) d)).
    change (sigd TL snd (r :: sigs) (v :: l) e) with (sigd TL snd sigs l (rset (toTyp r TL) (snd v) e)).
    assert (Hs1 : nets (pb_eff c n it r v s)) by (unfold pb_eff; now do 2 apply nets_updlc).
    assert (E : lcat (pb_eff c n it r v s) n = lc_t0 (i_sat it) tPBIAS (s_time s)
       (set_l_di (put2 (i_sat it) (toTyp r TL) (snd v) (l_di (lcat s n)))
       (set_l_pbias (put2 (i_sat it) (toTyp r TL) (c_sval c (fst v) (b_pb c)) (l_pbias (lcat s n))) (lcat s n)))).
    { unfold pb_eff. rewrite lcat_stamp by (first [apply nets_updlc; assumption|lia]). rewrite Z.eqb_refl.
      rewrite lcat_eff by (assumption || lia). rewrite Z.eqb_refl. reflexivity. }
    destruct (IH l _ (rset (toTyp r TL) (c_sval c (fst v) (b_pb c)) d) (rset (toTyp r TL) (snd v) e) Hs1) as (A & B & C & D & D2).
    { rewrite E. cbn. rewrite put2_get, Hd. reflexivity. }
    { rewrite E. cbn. rewrite put2_get, He. reflexivity. }
    split; [exact A|]. split; [exact B|]. split; [exact C|]. rewrite D2, E. split; [|auto].
    intros k Hk. destruct (D k Hk) as [-> ->]. rewrite E. cbn. split; now apply put2_other.
Qed.

(** signals of every satellite are different once their type is fixed *)
Definition distinct_sigs (its : list item) : Prop :=
  Forall (fun it => NoDup (map (fun r => (rsys r, rnum r)) (i_sig it))) its.
Lemma distinct_typ t sigs : NoDup (map (fun r => (rsys r, rnum r)) sigs) -> NoDup (map (fun r => toTyp r t) sigs).
Proof.
  intros H. apply (NoDup_map_inv (fun q => (rsys q, rnum q))). rewrite map_map. exact H.
Qed.

Lemma lcat_clear_cb n it s : nets s -> 0 <= n < 33 ->
  lcat (clear_cb n it s) n = set_l_cbias (zset (i_sat it) [] (l_cbias (lcat s n))) (lcat s n).
Proof. intros. unfold clear_cb. rewrite lcat_eff by (assumption || lia). now rewrite Z.eqb_refl. Qed.
Lemma lcat_clear_pb n it s : nets s -> 0 <= n < 33 ->
  lcat (clear_pb n it s) n = set_l_di (zset (i_sat it) [] (l_di (lcat s n))) (set_l_pbias (zset (i_sat it) [] (l_pbias (lcat s n))) (lcat s n)).
Proof. intros. unfold clear_pb. rewrite lcat_eff by (assumption || lia). now rewrite Z.eqb_refl. Qed.

Theorem cb_user c msg its h v i s : wf_cfg c -> ctx its s -> nets s -> NoDup (map i_sat its) -> distinct_sigs its ->
  wf_msg c its s (CCb h v) -> At msg i (enc_body c its (CCb h v)) ->
  exists s', decode_cssr_cbias c msg i s = (s', Some (Some (i + length (enc_body c its (CCb h v)))%nat)) /\
  (forall j it l k r x, nth_error its j = Some it -> nth_error v j = Some l ->
     nth_error (i_sig it) k = Some r -> nth_error l k = Some x ->
     cbias_of s' 0 (i_sat it) (toTyp r TC) = Some (c_sval c x (b_cb c))) /\
  (forall k q, ~ (exists it r, In it its /\ In r (i_sig it) /\ k = i_sat it /\ q = toTyp r TC) -> cbias_of s' 0 k q = None).
Proof.
  intros Hc Hx Hl Hn Hd Hw Ha. destruct (cb_ok c msg Hc its h v i s Hx Hw Ha) as [H1 _].
  eexists. split; [exact H1|]. clear H1. cbn [msg_eff]. cbv zeta.
  match goal with |- context [eff2 ?f its v ?t] => set (t0 := t) in *; set (F := f) in * end.
  assert (Hl0 : nets t0) by (unfold t0; apply nets_updlc; exact (nets_hd c false h s Hl)).
  assert (El : l_cbias (lcat t0 0) = []).
  { unfold t0. rewrite lcat_eff by (first [exact (nets_hd c false h s Hl)|lia]). rewrite Z.eqb_refl. reflexivity. }
  destruct (eff2_lookup (K := Z) i_sat (fun s k => zget k (l_cbias (lcat s 0))) nets
     F (fun it l => sigd TC (fun v => c_sval c v (b_cb c)) (i_sig it) l [])) with (xs := its) (ys := v) (s := t0) as (A & B & C).
  { intros it l u P1. unfold F.
    assert (Hu : nets (clear_cb 0 it u)) by now apply nets_updlc.
    destruct (cb_sigs c 0 it ltac:(lia) (i_sig it) l (clear_cb 0 it u) [] Hu) as (Q1 & Q2 & Q3 & _).
    { rewrite lcat_clear_cb by (assumption || lia). cbn. apply zget_zset_same. }
    split; [exact Q1|]. split; [exact Q2|]. intros k Hk. rewrite Q3 by assumption.
    rewrite lcat_clear_cb by (assumption || lia). cbn. apply zget_zset_other. congruence. }
  { assumption. }
  { assumption. }
  set (u := eff2 F its v t0) in *.
  assert (Ei : l_cbias (lcat (flag_eff 0 tCBIAS (iodc_eff tCBIAS (hd_iod c h s) u)) 0) = l_cbias (lcat u 0)).
  { rewrite lcat_flag by (assumption || lia). reflexivity. }
  unfold distinct_sigs in Hd. rewrite Forall_forall in Hd.
  destruct Hw as (_ & Hw).
  split.
  - intros j it l k r x Hj Hv Hr Hk. unfold cbias_of. rewrite Ei, (B j it l Hj Hv).
    apply (proj1 (sigd_get TC (fun v => c_sval c v (b_cb c)) (i_sig it) l [] (distinct_typ TC _ (Hd it (nth_error_In _ _ Hj)))) k r x Hr Hk).
  - intros k q Hk. unfold cbias_of. rewrite Ei. destruct (in_dec Z.eq_dec k (map i_sat its)) as [Hin|Hin].
    + apply in_map_iff in Hin as (it & <- & Hin). destruct (In_nth_error _ _ Hin) as [j Hj].
      assert (Hlen := Forall2_len _ _ _ Hw).
      destruct (nth_error v j) as [l|] eqn:Hv.
      2:{ apply nth_error_None in Hv. assert (j < length its)%nat by (apply nth_error_Some; congruence). lia. }
      rewrite (B j it l Hj Hv). rewrite (proj2 (sigd_get TC (fun v => c_sval c v (b_cb c)) (i_sig it) l [] (distinct_typ TC _ (Hd it Hin)))); [reflexivity|].
      intros Hq. apply in_map_iff in Hq as (r & <- & Hr). apply Hk. eauto 6.
    + rewrite C by assumption. now rewrite El.
Qed.

Theorem pb_user c msg its h v i s : wf_cfg c -> ctx its s -> nets s -> NoDup (map i_sat its) -> distinct_sigs its ->
  wf_msg c its s (CPb h v) -> At msg i (enc_body c its (CPb h v)) ->
  exists s', decode_cssr_pbias c msg i s = (s', Some (Some (i + length (enc_body c its (CPb h v)))%nat)) /\
  (forall j it l k r x, nth_error its j = Some it -> nth_error v j = Some l ->
     nth_error (i_sig it) k = Some r -> nth_error l k = Some x ->
     pbias_of s' 0 (i_sat it) (toTyp r TL) = Some (c_sval c (fst x) (b_pb c)) /\
     di_of s' 0 (i_sat it) (toTyp r TL) = Some (snd x)) /\
  (forall k q, ~ (exists it r, In it its /\ In r (i_sig it) /\ k = i_sat it /\ q = toTyp r TL) ->
     pbias_of s' 0 k q = None /\ di_of s' 0 k q = None).
Proof.
  intros Hc Hx Hl Hn Hd Hw Ha. destruct (pb_ok c msg Hc its h v i s Hx Hw Ha) as [H1 _].
  eexists. split; [exact H1|]. clear H1. cbn [msg_eff]. cbv zeta.
  match goal with |- context [eff2 ?f its v ?t] => set (t0 := t) in *; set (F := f) in * end.
  assert (Hl0 : nets t0) by (unfold t0; apply nets_updlc; exact (nets_hd c false h s Hl)).
  assert (El : l_pbias (lcat t0 0) = [] /\ l_di (lcat t0 0) = []).
  { unfold t0. rewrite lcat_eff by (first [exact (nets_hd c false h s Hl)|lia]). rewrite Z.eqb_refl. auto. }
  destruct (eff2_lookup (K := Z) i_sat (fun s k => match zget k (l_pbias (lcat s 0)), zget k (l_di (lcat s 0)) with Some a, Some b => Some (a, b) | _, _ => None end)
     (fun s => nets s /\ forall k, zget k (l_pbias (lcat s 0)) = None <-> zget k (l_di (lcat s 0)) = None)
     F (fun it l => (sigd TL (fun p : Z * Z => c_sval c (fst p) (b_pb c)) (i_sig it) l [], sigd TL snd (i_sig it) l [])))
     with (xs := its) (ys := v) (s := t0) as (A & B & C).
  { intros it l u [P1 P2]. unfold F.
    assert (Hu : nets (clear_pb 0 it u)) by now apply nets_updlc.
    destruct (pb_sigs c 0 it ltac:(lia) (i_sig it) l (clear_pb 0 it u) [] [] Hu) as (Q1 & Q2 & Q3 & Q4 & _).
    { rewrite lcat_clear_pb by (assumption || lia). cbn. apply zget_zset_same. }
    { rewrite lcat_clear_pb by (assumption || lia). cbn. apply zget_zset_same. }
    assert (Q5 : forall k, k <> i_sat it -> zget k (l_pbias (lcat (eff2 (pb_eff c 0 it) (i_sig it) l (clear_pb 0 it u)) 0)) = zget k (l_pbias (lcat u 0)) /\
       zget k (l_di (lcat (eff2 (pb_eff c 0 it) (i_sig it) l (clear_pb 0 it u)) 0)) = zget k (l_di (lcat u 0))).
    { intros k Hk. destruct (Q4 k Hk) as [-> ->]. rewrite lcat_clear_pb by (assumption || lia). cbn.
      split; apply zget_zset_other; congruence. }
    split; [split; [exact Q1|]|split].
    - intros k. destruct (Z.eq_dec k (i_sat it)) as [->|Hk]; [rewrite Q2, Q3; split; discriminate|].
      destruct (Q5 k Hk) as [-> ->]. apply P2.
    - now rewrite Q2, Q3.
    - intros k Hk. destruct (Q5 k Hk) as [-> ->]. reflexivity. }
  { assumption. }
  { split; [assumption|]. destruct El as [-> ->]. intros k. cbn. split; reflexivity. }
  set (u := eff2 F its v t0) in *. destruct A as [A1 A2].
  assert (Ei : l_pbias (lcat (flag_eff 0 tPBIAS (iodc_eff tPBIAS (hd_iod c h s) u)) 0) = l_pbias (lcat u 0) /\
               l_di (lcat (flag_eff 0 tPBIAS (iodc_eff tPBIAS (hd_iod c h s) u)) 0) = l_di (lcat u 0)).
  { rewrite lcat_flag by (assumption || lia). rewrite Z.eqb_refl. auto. }
  destruct Ei as [Ei1 Ei2].
  unfold distinct_sigs in Hd. rewrite Forall_forall in Hd.
  destruct Hw as (_ & Hw).
  split.
  - intros j it l k r x Hj Hv Hr Hk. unfold pbias_of, di_of. rewrite Ei1, Ei2. specialize (B j it l Hj Hv).
    destruct (zget (i_sat it) (l_pbias (lcat u 0))), (zget (i_sat it) (l_di (lcat u 0))); try discriminate.
    injection B as -> ->. pose proof (distinct_typ TL _ (Hd it (nth_error_In _ _ Hj))) as Ht.
    split; [apply (proj1 (sigd_get TL (fun p : Z * Z => c_sval c (fst p) (b_pb c)) (i_sig it) l [] Ht) k r x Hr Hk) | apply (proj1 (sigd_get TL snd (i_sig it) l [] Ht) k r x Hr Hk)].
  - intros k q Hk. unfold pbias_of, di_of. rewrite Ei1, Ei2. destruct (in_dec Z.eq_dec k (map i_sat its)) as [Hin|Hin].
    + apply in_map_iff in Hin as (it & <- & Hin). destruct (In_nth_error _ _ Hin) as [j Hj].
      assert (Hlen := Forall2_len _ _ _ Hw).
      destruct (nth_error v j) as [l|] eqn:Hv.
      2:{ apply nth_error_None in Hv. assert (j < length its)%nat by (apply nth_error_Some; congruence). lia. }
      specialize (B j it l Hj Hv).
      destruct (zget (i_sat it) (l_pbias (lcat u 0))), (zget (i_sat it) (l_di (lcat u 0))); try discriminate.
      injection B as -> ->. pose proof (distinct_typ TL _ (Hd it Hin)) as Ht.
      assert (Hq : ~ In q (map (fun r => toTyp r TL) (i_sig it))).
      { intros Hq. apply in_map_iff in Hq as (r & <- & Hr). apply Hk. eauto 6. }
      rewrite (proj2 (sigd_get TL (fun p : Z * Z => c_sval c (fst p) (b_pb c)) (i_sig it) l [] Ht)) by exact Hq.
      rewrite (proj2 (sigd_get TL snd (i_sig it) l [] Ht)) by exact Hq. auto.
    + specialize (C k Hin). destruct El as [El1 El2]. rewrite El1 in C. cbn in C.
      destruct (zget k (l_pbias (lcat u 0))) eqn:E1, (zget k (l_di (lcat u 0))) eqn:E2; try discriminate; auto.
      * apply A2 in E2. congruence.
      * apply A2 in E1. congruence.
Qed.

Lemma sel_NoDup {A B} (f : A -> B) : forall (m : bits) (l : list A), NoDup (map f l) -> NoDup (map f (sel m l)).
Proof.
  induction m as [|b m IH]; intros [|x l] H; cbn; try constructor.
  inversion_clear H as [|? ? H1 H2]. destruct b; cbn; [|now apply IH]. constructor; [|now apply IH].
  intros Hin. apply H1. apply in_map_iff in Hin as (y & E & Hy). rewrite <- E. apply in_map. eapply sel_In, Hy.
Qed.

(** combined orbit and clock message for one network (or for all satellites) *)
Theorem comb_user c msg its h net v i s : wf_cfg c -> c_has c = false -> ctx its s -> nets s -> NoDup (map i_sat its) ->
  wf_msg c its s (CComb h true true net v) -> At msg i (enc_body c its (CComb h true true net v)) ->
  let n := match net with None => 0 | Some (k, _) => k end in
  let loc := match net with None => its | Some (_, m) => sel m its end in
  exists s', decode_cssr_comb c msg i s = (s', Some (Some (i + length (enc_body c its (CComb h true true net v)))%nat)) /\
  (forall j it x, nth_error loc j = Some it -> nth_error v j = Some x ->
     iode_of s' n (i_sat it) = Some (o_iode (fst x)) /\ dorb_of s' n (i_sat it) = Some (orb3_of c (fst x)) /\
     dclk_of s' n (i_sat it) = Some (c_sval c (snd x) (b_clk c))) /\
  (forall k, ~ In k (map i_sat loc) -> iode_of s' n k = None /\ dorb_of s' n k = None /\ dclk_of s' n k = None).
Proof.
  intros Hc Eh Hx Hl Hn Hw Ha n loc. destruct (comb_ok c msg Hc its h true true net v Eh i s Hx Hw Ha) as [H1 _].
  eexists. split; [exact H1|]. clear H1. cbn [msg_eff when]. cbv zeta. fold n. fold loc.
  assert (Hr : 0 <= n < 33).
  { unfold n. destruct net as [[k m]|]; [|lia]. destruct Hw as (_ & _ & (Hu & _) & _). unfold ub in Hu. lia. }
  assert (Hnl : NoDup (map i_sat loc)).
  { unfold loc. destruct net as [[k m]|]; [|assumption]. now apply sel_NoDup. }
  match goal with |- context [updlc n (fun l => set_l_iode _ _) ?t] => set (s1 := t) in * end.
  assert (Hl1 : nets s1) by (unfold s1; destruct net as [[k m]|]; [apply nets_updlc|]; exact (nets_hd c false h s Hl)).
  match goal with |- context [eff2 ?f loc v ?t] => set (t0 := t) in *; set (F := f) in * end.
  assert (Hl2 : nets (updlc n (fun l => set_l_iode (Some []) (set_l_dorb (Some []) l)) s1)) by now apply nets_updlc.
  assert (Hl0 : nets t0) by (unfold t0; apply nets_updlc; exact Hl2).
  assert (El : l_iode (lcat t0 n) = Some [] /\ l_dorb (lcat t0 n) = Some [] /\ l_dclk (lcat t0 n) = Some []).
  { unfold t0. unfold udi_eff. 
    match goal with |- context [lcat (set_s_udi ?a ?b) n] => change (lcat (set_s_udi a b) n) with (lcat b n) end.
    rewrite lcat_eff by (first [exact Hl2|lia]). rewrite Z.eqb_refl.
    match goal with |- context [lcat (set_s_udi ?a ?b) n] => change (lcat (set_s_udi a b) n) with (lcat b n) end.
    rewrite lcat_eff by (first [assumption|lia]). rewrite Z.eqb_refl. auto. }
  destruct El as (El1 & El2 & El3).
  destruct (eff2_lookup (K := Z) i_sat (fun s k => match iode_of s n k, dorb_of s n k, dclk_of s n k with Some a, Some b, Some d => Some (a, b, d) | _, _, _ => None end)
     (fun s' => nets s' /\ l_dorb (lcat s' n) <> None /\ l_iode (lcat s' n) <> None /\ l_dclk (lcat s' n) <> None /\
        (forall k, iode_of s' n k = None <-> dorb_of s' n k = None) /\ (forall k, iode_of s' n k = None <-> dclk_of s' n k = None))
     F (fun _ x => (o_iode (fst x), orb3_of c (fst x), c_sval c (snd x) (b_clk c)))) with (xs := loc) (ys := v) (s := t0) as (A & B & C).
  { intros it x u (P1 & P2 & P3 & P4 & P5 & P6). unfold F.
    destruct (orb_write c n it (fst x) u P1 Hr P2 P3) as (Q1 & Q2 & Q3 & Q4 & Q5 & Q6 & Q7).
    assert (P4' : l_dclk (lcat (orb_eff c n it (fst x) u) n) <> None).
    { unfold orb_eff. cbv zeta. rewrite lcat_stamp by (first [apply nets_updlc; assumption|lia]). rewrite lcat_eff by (assumption || lia).
      rewrite Z.eqb_refl. cbn. exact P4. }
    destruct (clk_write c n it (snd x) (orb_eff c n it (fst x) u) Q1 Hr P4') as (R1 & R2 & _ & R4 & R5 & R6).
    assert (R7 : l_dorb (lcat (clk_eff c n it (snd x) (orb_eff c n it (fst x) u)) n) <> None /\
                 l_iode (lcat (clk_eff c n it (snd x) (orb_eff c n it (fst x) u)) n) <> None).
    { unfold clk_eff. rewrite lcat_stamp by (first [apply nets_updlc; assumption|lia]). rewrite lcat_eff by (assumption || lia).
      rewrite Z.eqb_refl. cbn [l_dorb l_iode lc_t0 set_l_t0 set_l_dclk]. auto. }
    destruct R7 as [R7 R8].
    assert (R9 : dclk_of (clk_eff c n it (snd x) (orb_eff c n it (fst x) u)) n (i_sat it) = Some (c_sval c (snd x) (b_clk c))).
    { rewrite R4. unfold mult_of. rewrite Eh. f_equal. apply clk_val_1. }
    split; [|split].
    - repeat (split; [assumption|]). split; intros k; destruct (Z.eq_dec k (i_sat it)) as [->|Hk].
      + destruct (R6 (i_sat it)) as [-> ->]. rewrite Q4, Q5. split; discriminate.
      + destruct (R6 k) as [-> ->]. destruct (Q6 k Hk) as [-> ->]. apply P5.
      + destruct (R6 (i_sat it)) as [-> _]. rewrite Q4, R9. split; discriminate.
      + destruct (R6 k) as [-> _]. rewrite R5 by assumption. rewrite Q7. destruct (Q6 k Hk) as [-> _]. apply P6.
    - destruct (R6 (i_sat it)) as [-> ->]. rewrite Q4, Q5, R9. reflexivity.
    - intros k Hk. destruct (R6 k) as [-> ->]. destruct (Q6 k Hk) as [-> ->]. rewrite R5 by assumption. rewrite Q7. reflexivity. }
  { assumption. }
  { split; [assumption|]. unfold iode_of, dorb_of, dclk_of. rewrite El1, El2, El3. repeat split; discriminate. }
  set (u := eff2 F loc v t0) in *. destruct A as (A1 & A2 & A3 & A4 & A5 & A6).
  assert (Ei : forall k, iode_of (flag_eff n tORBIT (flag_eff n tCLOCK u)) n k = iode_of u n k /\
                         dorb_of (flag_eff n tORBIT (flag_eff n tCLOCK u)) n k = dorb_of u n k /\
                         dclk_of (flag_eff n tORBIT (flag_eff n tCLOCK u)) n k = dclk_of u n k).
  { intros k. unfold iode_of, dorb_of, dclk_of. rewrite lcat_flag by (first [apply nets_updlc; assumption|lia]). rewrite lcat_flag by (assumption || lia).
    rewrite Z.eqb_refl. auto. }
  split.
  - intros j it x Hj Hv. destruct (Ei (i_sat it)) as (-> & -> & ->). specialize (B j it x Hj Hv).
    destruct (iode_of u n (i_sat it)), (dorb_of u n (i_sat it)), (dclk_of u n (i_sat it)); try discriminate. injection B as -> -> ->. auto.
  - intros k Hk. destruct (Ei k) as (-> & -> & ->). specialize (C k Hk).
    unfold iode_of at 2 in C. rewrite El1 in C. cbn in C.
    destruct (iode_of u n k) eqn:E1.
    + assert (dorb_of u n k <> None) by (intros E; apply A5 in E; congruence).
      assert (dclk_of u n k <> None) by (intros E; apply A6 in E; congruence).
      destruct (dorb_of u n k), (dclk_of u n k); congruence.
    + split; [reflexivity|]. split; [now apply A5|now apply A6].
Qed.
