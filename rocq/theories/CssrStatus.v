(** Reception status of the compact-SSR decoder: status bits never disappear, whatever the input;
    after a stream they tell exactly what was received; and expiry of old corrections. *)
From Verif Require Import Base BaseFacts BitProofs CssrModel CssrSpec CssrFacts CssrCodec CssrMask CssrStream.
From Coq Require Import ZifyBool ZifyNat.
Open Scope Z_scope.

(* ---------- arbitrary input: status bits are never cleared ---------- *)
(** [s'] has at least the status bits of [s], network by network, and the user's selections *)
Definition grows (s s' : cst) : Prop :=
  (length (s_lc s') = length (s_lc s) /\ s_inet_ref s' = s_inet_ref s /\ s_local_pbias s' = s_local_pbias s) /\
  forall n b, Z.testbit (l_cstat (nth n (s_lc s) lc_init)) b = true ->
              Z.testbit (l_cstat (nth n (s_lc s') lc_init)) b = true.
Lemma grows_refl s : grows s s.
Proof. repeat split; auto. Qed.
Lemma grows_trans a b c : grows a b -> grows b c -> grows a c.
Proof. intros [(A1 & A2 & A3) H2] [(B1 & B2 & B3) H4]. repeat split; try congruence. auto. Qed.

Definition pres {A} (m : M A) : Prop := forall s, grows s (fst (m s)).
Lemma pres_bind {A B} (m : M A) (k : A -> M B) : pres m -> (forall a, pres (k a)) -> pres (mbind m k).
Proof.
  intros H1 H2 s. unfold mbind. pose proof (H1 s) as H. destruct (m s) as [s1 [a|]]; cbn in *; [|exact H].
  eapply grows_trans; [exact H|apply H2].
Qed.
Lemma pres_ret {A} (a : A) : pres (ret a). Proof. intros s. apply grows_refl. Qed.
Lemma pres_lift {A} (o : option A) : pres (lift o). Proof. intros s. apply grows_refl. Qed.
Lemma pres_ask {A} (f : cst -> A) : pres (ask f). Proof. intros s. apply grows_refl. Qed.
Lemma pres_modify f : (forall s, s_lc (f s) = s_lc s /\ s_inet_ref (f s) = s_inet_ref s /\ s_local_pbias (f s) = s_local_pbias s) -> pres (modify f).
Proof. intros H s. cbn. unfold grows. destruct (H s) as (-> & -> & ->). auto. Qed.
Lemma pres_modlc n f : (forall l b, Z.testbit (l_cstat l) b = true -> Z.testbit (l_cstat (f l)) b = true) -> pres (modlc n f).
Proof.
  intros H s. cbn. unfold grows. cbn. rewrite upd_length. split; [auto|]. intros k b Hb.
  destruct (Nat.lt_ge_cases (Z.to_nat n) (length (s_lc s))) as [Hn|Hn].
  - rewrite nth_upd by assumption. destruct (Nat.eqb_spec k (Z.to_nat n)) as [->|]; auto.
  - replace (upd (Z.to_nat n) f (s_lc s)) with (s_lc s); [exact Hb|].
    revert Hn. generalize (Z.to_nat n). clear. induction (s_lc s) as [|a l IH]; intros [|m] Hn; cbn in *; try lia; auto.
    f_equal. apply IH. lia.
Qed.
Lemma pres_forM {A} n : forall k (f : nat -> A -> M A) a, (forall k a, pres (f k a)) -> pres (forM n k f a).
Proof. induction n as [|n IH]; intros k f a H; cbn [forM]; [apply pres_ret|]. apply pres_bind; auto. Qed.
Lemma pres_eachM {X A} : forall (l : list X) (f : X -> A -> M A) a, (forall x a, pres (f x a)) -> pres (eachM l f a).
Proof. induction l as [|x l IH]; intros f a H; cbn [eachM]; [apply pres_ret|]. apply pres_bind; auto. Qed.
Lemma pres_whenM b m : pres m -> pres (whenM b m).
Proof. destruct b; [auto|intros; apply pres_ret]. Qed.

Ltac pr :=
  lazymatch goal with
  | |- forall _, _ => intro; pr
  | |- pres (mbind _ _) => apply pres_bind; [pr | intro; pr]
  | |- pres (ret _) => apply pres_ret
  | |- pres (lift _) => apply pres_lift
  | |- pres (ask _) => apply pres_ask
  | |- pres (ru _ _ _) => apply pres_lift
  | |- pres (rs _ _ _) => apply pres_lift
  | |- pres (forM _ _ _ _) => apply pres_forM; intros; pr
  | |- pres (eachM _ _ _) => apply pres_eachM; intros; pr
  | |- pres (whenM _ _) => apply pres_whenM; pr
  | |- pres (if ?b then _ else _) => destruct b; pr
  | |- pres (let (_, _) := ?p in _) => destruct p; pr
  | |- pres (match ?p with Some _ => _ | None => _ end) => destruct p; pr
  | |- pres (modlc _ _) => apply pres_modlc; intros; cbn in *; rewrite ?Z.lor_spec; try assumption;
                           try (apply orb_true_iff; left; assumption)
  | |- pres (modify _) => apply pres_modify; intros; cbn; repeat (match goal with |- context [if ?b then _ else _] => destruct b end; cbn); repeat split; reflexivity
  | |- _ => idtac
  end.

Section Pres.
Variable c : cfg.
Variable msg : bits.
Lemma set_t0_pres n sat ct : pres (set_t0 n sat ct). Proof. unfold set_t0. pr. Qed.
Lemma or_cstat_pres n b : pres (or_cstat n b). Proof. unfold or_cstat. pr. Qed.
Lemma set_udi_pres n b : pres (set_udi n b). Proof. unfold set_udi. pr. Qed.
Lemma set_iodc_pres n b : pres (set_iodc n b). Proof. unfold set_iodc. pr. Qed.
Lemma local_sat_pres n : pres (decode_local_sat n). Proof. unfold decode_local_sat. pr. Qed.
Lemma head_pres mask i : pres (decode_head c msg mask i). Proof. unfold decode_head. cbv zeta. pr. Qed.
Lemma sub_pres st i : pres (decode_sub c msg st i).
Proof.
  Ltac pr2 :=
    lazymatch goal with
    | |- pres (set_t0 _ _ _) => apply set_t0_pres
    | |- pres (or_cstat _ _) => apply or_cstat_pres
    | |- pres (set_udi _ _) => apply set_udi_pres
    | |- pres (set_iodc _ _) => apply set_iodc_pres
    | |- pres (decode_local_sat _) => apply local_sat_pres
    | |- pres (decode_head _ _ _ _) => apply head_pres
    | |- pres (decode_orb_sat _ _ _ _ _ _) => unfold decode_orb_sat; cbv zeta; pr; pr2
    | |- pres (decode_clk_sat _ _ _ _ _) => unfold decode_clk_sat; cbv zeta; pr; pr2
    | |- pres (decode_cbias_sat _ _ _ _ _ _) => unfold decode_cbias_sat; cbv zeta; pr; pr2
    | |- pres (decode_pbias_sat _ _ _ _ _ _) => unfold decode_pbias_sat; cbv zeta; pr; pr2
    | |- pres (decode_stec_coeff _ _ _) => unfold decode_stec_coeff; cbv zeta; pr; pr2
    | |- pres (trop_fn _ _) => unfold trop_fn; cbv zeta; pr; pr2
    | |- pres flg_off => unfold flg_off; pr
    | |- pres (sat_k _) => unfold sat_k; pr
    | |- pres (sys_k _) => unfold sys_k; pr
    | |- pres (sigs_k _) => unfold sigs_k; pr
    | |- pres (mask_sat _ _ _ _ _ _ _) => unfold mask_sat; cbv zeta; pr; pr2
    | |- pres (mask_blk _ _ _) => unfold mask_blk; cbv zeta; pr; pr2
    | |- pres (decode_mask _ _ _) => pr
    end.
  unfold decode_sub.
  assert (D : forall m, m = decode_cssr_mask c msg i \/ m = decode_cssr_orb c msg i \/ m = decode_cssr_clk c msg i \/
    m = decode_cssr_cbias c msg i \/ m = decode_cssr_pbias c msg i \/ m = decode_cssr_bias c msg i \/
    m = decode_cssr_ura c msg i \/ m = decode_cssr_stec c msg i \/ m = decode_cssr_grid c msg i \/
    m = decode_cssr_sinfo msg i \/ m = decode_cssr_comb c msg i \/ m = decode_cssr_atmos c msg i -> pres m).
  { intros m Hm. repeat (destruct Hm as [->|Hm]); [..|subst m].
    - unfold decode_cssr_mask; cbv zeta; pr; pr2.
    - unfold decode_cssr_orb; cbv zeta; pr; pr2.
    - unfold decode_cssr_clk; cbv zeta; pr; pr2.
    - unfold decode_cssr_cbias; cbv zeta; pr; pr2.
    - unfold decode_cssr_pbias; cbv zeta; pr; pr2.
    - unfold decode_cssr_bias; cbv zeta; pr; pr2.
    - unfold decode_cssr_ura; cbv zeta; pr; pr2.
    - unfold decode_cssr_stec; cbv zeta; pr; pr2.
    - unfold decode_cssr_grid; cbv zeta; pr; pr2.
    - unfold decode_cssr_sinfo; cbv zeta; pr; pr2.
    - unfold decode_cssr_comb; cbv zeta; pr; pr2.
    - unfold decode_cssr_atmos; cbv zeta; pr; pr2. }
  destruct st as [|p|p]; try apply pres_ret.
  repeat (match goal with |- pres (match ?p with _ => _ end) => destruct p end); try apply pres_ret; apply D; tauto.
Qed.
End Pres.

Lemma loop_grows c msg fuel : forall i s, grows s (fst (decode_loop c msg fuel i s)).
Proof.
  induction fuel as [|f IH]; intros i s; [apply grows_refl|]. cbn [decode_loop].
  destruct (getu msg i 12) as [mt|]; [|apply grows_refl].
  destruct (getu msg (i + 12) 4) as [st|]; [|apply grows_refl].
  destruct (negb (mt =? 4073)); [apply grows_refl|]. cbv zeta.
  pose proof (sub_pres c msg st (i + 16) (set_s_subtype st s)) as H.
  assert (H' : grows s (fst (decode_sub c msg st (i + 16) (set_s_subtype st s)))) by exact H.
  destruct (decode_sub c msg st (i + 16) (set_s_subtype st s)) as [s' [[j|]|]]; cbn in H'; try exact H'.
  destruct (j =? 0)%nat; [exact H'|]. eapply grows_trans; [exact H'|apply IH].
Qed.

Theorem status_monotone c msg i s n b : 0 <= n ->
  Z.testbit (l_cstat (lcat s n)) b = true -> Z.testbit (l_cstat (lcat (fst (decode_cssr c msg i s)) n)) b = true.
Proof. intros _. apply (proj2 (loop_grows c msg (length msg / 16 + 1) i s)). Qed.

(* ---------- which message provides which status bit ---------- *)
(** network [n], kind of correction [b] (sCType) *)
Definition provides (m : cmsg) (n b : Z) : bool :=
  match m with
  | CMask _ _ => (n =? 0) && (b =? 0)
  | COrb _ _ => (n =? 0) && (b =? 1)
  | CClk _ _ _ => (n =? 0) && (b =? 2)
  | CCb _ _ => (n =? 0) && (b =? 3)
  | CPb _ _ => (n =? 0) && (b =? 4)
  | CBias _ cb pb inet _ _ => (n =? inet) && ((cb && (b =? 3)) || (pb && (b =? 4)))
  | CUra _ _ => (n =? 0) && (b =? 7)
  | CStec _ _ inet _ _ => (n =? inet) && (b =? 5)
  | CGrid _ _ _ inet _ _ _ => (n =? inet) && (b =? 6)
  | CSi _ _ _ => false
  | CComb _ orb clk net _ =>
      (n =? match net with Some (k, _) => k | None => 0 end) && ((orb && (b =? 1)) || (clk && (b =? 2)))
  | CAtmos _ inet _ _ fn rs stec _ _ =>
      (n =? inet) && (((trop_flag fn rs >? 0) && (b =? 6)) || ((stec >? 0) && (b =? 5)))
  end.

Lemma lcat_updlc k f s n : 0 <= k -> 0 <= n -> (Z.to_nat k < length (s_lc s))%nat ->
  lcat (updlc k f s) n = if n =? k then f (lcat s n) else lcat s n.
Proof.
  intros Hk Hn Hl. unfold lcat, updlc. cbn. rewrite nth_upd by assumption.
  destruct (Nat.eqb_spec (Z.to_nat n) (Z.to_nat k)), (Z.eqb_spec n k); try lia; [subst; reflexivity|reflexivity].
Qed.
Lemma len_updlc k f s : length (s_lc (updlc k f s)) = length (s_lc s).
Proof. unfold updlc. cbn. apply upd_length. Qed.

(** a step that leaves all status words alone *)
Definition quiet (f : cst -> cst) : Prop := forall s,
  length (s_lc (f s)) = length (s_lc s) /\ forall n, l_cstat (lcat (f s) n) = l_cstat (lcat s n).
Lemma quiet_id : quiet (fun s => s). Proof. split; auto. Qed.
Lemma quiet_comp f g : quiet f -> quiet g -> quiet (fun s => f (g s)).
Proof. intros H1 H2 s. destruct (H1 (g s)) as [A B], (H2 s) as [C D]. split; [congruence|]. intros n. now rewrite B, D. Qed.
Lemma quiet_lc f : (forall s, s_lc (f s) = s_lc s) -> quiet f.
Proof. intros H s. unfold lcat. rewrite H. auto. Qed.
Lemma quiet_updlc k f : (forall l, l_cstat (f l) = l_cstat l) -> quiet (updlc k f).
Proof.
  intros H s. split; [apply len_updlc|]. intros n. unfold lcat, updlc. cbn.
  destruct (Nat.lt_ge_cases (Z.to_nat k) (length (s_lc s))) as [Hn|Hn].
  - rewrite nth_upd by assumption. destruct (Nat.eqb_spec (Z.to_nat n) (Z.to_nat k)) as [->|]; auto.
  - replace (upd (Z.to_nat k) f (s_lc s)) with (s_lc s); [reflexivity|].
    revert Hn. generalize (Z.to_nat k). clear. induction (s_lc s) as [|a l IH]; intros [|m] Hn; cbn in *; try lia; auto.
    f_equal. apply IH. lia.
Qed.
Lemma quiet_eff {X} (f : X -> cst -> cst) : (forall x, quiet (f x)) -> forall l, quiet (eff f l).
Proof.
  intros H l. induction l as [|x l IH]; [exact quiet_id|].
  intros s. change (eff f (x :: l) s) with (eff f l (f x s)). destruct (IH (f x s)) as [A B], (H x s) as [C D].
  split; [congruence|]. intros n. now rewrite B, D.
Qed.
Lemma quiet_eff2 {X Y} (f : X -> Y -> cst -> cst) : (forall x y, quiet (f x y)) -> forall l r, quiet (eff2 f l r).
Proof. intros H l r. unfold eff2. apply quiet_eff. intros [x y]. apply H. Qed.
Lemma quiet_when b f : quiet f -> quiet (when b f).
Proof. intros H. destruct b; [exact H|exact quiet_id]. Qed.
Lemma quiet_stamp n sat ct : quiet (stamp n sat ct).
Proof. intros s. apply (quiet_updlc n (lc_t0 sat ct (s_time s))). reflexivity. Qed.
Lemma quiet_udi a b : quiet (udi_eff a b). Proof. now apply quiet_lc. Qed.
Lemma quiet_iodc a b : quiet (iodc_eff a b). Proof. now apply quiet_lc. Qed.
Lemma hd_lc c mask h s : s_lc (hd_eff c mask h s) = s_lc s.
Proof.
  unfold hd_eff. destruct (c_has c), mask; cbn;
    repeat (match goal with |- context [if ?b then _ else _] => destruct b end; cbn); reflexivity.
Qed.
Lemma quiet_hd c mask h : quiet (hd_eff c mask h).
Proof. apply quiet_lc. apply hd_lc. Qed.
Lemma quiet_orb c n it v : quiet (orb_eff c n it v).
Proof. unfold orb_eff. cbv zeta. apply (quiet_comp (stamp n (i_sat it) tORBIT)); [apply quiet_stamp|]. now apply quiet_updlc. Qed.
Lemma quiet_clk c n it v : quiet (clk_eff c n it v).
Proof.
  intros s. unfold clk_eff. set (m := mult_of c it s).
  apply (quiet_comp (stamp n (i_sat it) tCLOCK)); [apply quiet_stamp|]. now apply quiet_updlc.
Qed.
Lemma quiet_cb c n it r v : quiet (cb_eff c n it r v).
Proof. unfold cb_eff. apply (quiet_comp (stamp n (i_sat it) tCBIAS)); [apply quiet_stamp|]. now apply quiet_updlc. Qed.
Lemma quiet_pb c n it r v : quiet (pb_eff c n it r v).
Proof. unfold pb_eff. apply (quiet_comp (stamp n (i_sat it) tPBIAS)); [apply quiet_stamp|]. now apply quiet_updlc. Qed.

Lemma app_quiet f s : quiet f -> length (s_lc (f s)) = length (s_lc s) /\ forall n, l_cstat (lcat (f s) n) = l_cstat (lcat s n).
Proof. intros H. apply H. Qed.

(** status word of network [n] after [flag_eff] *)
Lemma flag_bit k ct s n b : 0 <= k -> 0 <= n -> 0 <= ct -> 0 <= b -> (Z.to_nat k < length (s_lc s))%nat ->
  Z.testbit (l_cstat (lcat (flag_eff k ct s) n)) b = Z.testbit (l_cstat (lcat s n)) b || ((n =? k) && (b =? ct)).
Proof.
  intros Hk Hn Hc Hb Hl. unfold flag_eff. rewrite lcat_updlc by assumption.
  destruct (n =? k); cbn; [|now rewrite orb_false_r].
  rewrite Z.lor_spec, Z.pow2_bits_eqb by assumption. now rewrite Z.eqb_sym.
Qed.
Lemma len_flag k ct s : length (s_lc (flag_eff k ct s)) = length (s_lc s).
Proof. apply len_updlc. Qed.

Definition bit_of (s : cst) (n b : Z) : bool := Z.testbit (l_cstat (lcat s n)) b.
Lemma quiet_bit f s n b : quiet f -> bit_of (f s) n b = bit_of s n b.
Proof. intros H. unfold bit_of. now rewrite (proj2 (H s)). Qed.
Lemma quiet_len f s : quiet f -> length (s_lc (f s)) = length (s_lc s).
Proof. intros H. apply (proj1 (H s)). Qed.

Lemma quiet_clear_cb n it : quiet (clear_cb n it). Proof. now apply quiet_updlc. Qed.
Lemma quiet_clear_pb n it : quiet (clear_pb n it). Proof. now apply quiet_updlc. Qed.
Lemma quiet_item g it : quiet (item_eff g it). Proof. apply quiet_lc. reflexivity. Qed.
Lemma quiet_blk c b : quiet (blk_eff c b).
Proof.
  intros s. unfold blk_eff. cbv zeta.
  match goal with |- context [eff (item_eff ?g) ?l ?t] => assert (H : quiet (eff (item_eff g) l)) by (apply quiet_eff; apply quiet_item);
    destruct (H t) as [A B]; set (u := eff (item_eff g) l t) in * end.
  destruct (c_has c); (split; [exact A|intros n; exact (B n)]).
Qed.

Ltac qt :=
  cbv zeta;
  lazymatch goal with
  | |- quiet (fun s => s) => exact quiet_id
  | |- quiet (fun s => set_s_dcm (@?x s) s) => apply quiet_lc; reflexivity
  | |- quiet (fun s => set_s_sat_n_p (@?x s) s) => apply quiet_lc; reflexivity
  | |- quiet (fun s => if ?b then _ else _) => destruct b; qt
  | |- quiet (fun s => ?f (@?g s)) => apply (quiet_comp f g); qt
  | |- quiet (if ?b then _ else _) => destruct b; qt
  | |- quiet (stamp _ _ _) => apply quiet_stamp
  | |- quiet (udi_eff _ _) => apply quiet_udi
  | |- quiet (iodc_eff _ _) => apply quiet_iodc
  | |- quiet (hd_eff _ _ _) => apply quiet_hd
  | |- quiet (orb_eff _ _ _ _) => apply quiet_orb
  | |- quiet (clk_eff _ _ _ _) => apply quiet_clk
  | |- quiet (cb_eff _ _ _ _ _) => apply quiet_cb
  | |- quiet (pb_eff _ _ _ _ _) => apply quiet_pb
  | |- quiet (clear_cb _ _) => apply quiet_clear_cb
  | |- quiet (clear_pb _ _) => apply quiet_clear_pb
  | |- quiet (blk_eff _ _) => apply quiet_blk
  | |- quiet (updlc _ _) => apply quiet_updlc; reflexivity
  | |- quiet (when _ _) => apply quiet_when; qt
  | |- quiet (eff2 _ _ _) => apply quiet_eff2; intros; qt
  | |- quiet (eff _ _) => apply quiet_eff; intros; qt
  | |- quiet (stec_coef_eff ?a ?b ?c ?d) => unfold stec_coef_eff; qt
  | |- quiet (grid_pt_eff ?a ?b ?c ?d ?e ?f) => unfold grid_pt_eff, stec_at; cbv zeta; destruct (c >? 0); qt
  | |- quiet (stecv_eff ?a ?stec ?c ?d) => unfold stecv_eff; cbv zeta; destruct (stec >? 0), (Z.testbit stec 0), (Z.testbit stec 1); qt
  | |- quiet _ => apply quiet_lc; reflexivity
  end.
(** [F] preserves the number of networks and adds exactly the status bits [P] *)
Definition adds (F : cst -> cst) (P : Z -> Z -> bool) : Prop := forall s, length (s_lc s) = 33%nat ->
  length (s_lc (F s)) = 33%nat /\ forall n b, 0 <= n -> 0 <= b -> bit_of (F s) n b = bit_of s n b || P n b.
Lemma adds_quiet f : quiet f -> adds f (fun _ _ => false).
Proof. intros H s Hl. split; [now rewrite (quiet_len f s H)|]. intros. now rewrite quiet_bit, orb_false_r. Qed.
Lemma adds_comp f g P Q : adds f P -> adds g Q -> adds (fun s => f (g s)) (fun n b => Q n b || P n b).
Proof.
  intros H1 H2 s Hl. destruct (H2 s Hl) as [A B]. destruct (H1 (g s) A) as [C D]. split; [exact C|].
  intros n b Hn Hb. now rewrite D, B, orb_assoc.
Qed.
Lemma adds_flag k ct : 0 <= k < 33 -> 0 <= ct -> adds (flag_eff k ct) (fun n b => (n =? k) && (b =? ct)).
Proof.
  intros Hk Hc s Hl. split; [now rewrite len_flag|]. intros n b Hn Hb. unfold bit_of. apply flag_bit; lia.
Qed.
Lemma adds_when b f P : adds f P -> adds (when b f) (fun n x => b && P n x).
Proof.
  intros H s Hl. destruct b; cbn [when].
  - destruct (H s Hl) as [A B]. split; [exact A|]. intros. now rewrite B.
  - split; [exact Hl|]. intros. now rewrite orb_false_r.
Qed.
Lemma adds_ext f P Q : adds f P -> (forall n b, 0 <= n -> 0 <= b -> P n b = Q n b) -> adds f Q.
Proof. intros H E s Hl. destruct (H s Hl) as [A B]. split; [exact A|]. intros. rewrite B by assumption. now rewrite E. Qed.
(** a step that looks at the state it is applied to *)
Lemma adds_at (f : cst -> cst -> cst) P : (forall s0, adds (f s0) P) -> adds (fun s => f s s) P.
Proof. intros H s. apply (H s s). Qed.

Ltac ad :=
  cbv zeta;
  lazymatch goal with
  | |- adds (fun s => flag_eff ?k ?ct (@?g s)) _ => eapply (adds_comp (flag_eff k ct) g); [apply adds_flag; [|vm_compute; discriminate]|ad]
  | |- adds (flag_eff ?k ?ct) _ => apply adds_flag; [|vm_compute; discriminate]
  | |- adds (fun s => set_s_sat_n_p (@?x s) s) _ => apply adds_quiet; qt
  | |- adds (fun s => when ?b ?f (@?g s)) _ => eapply (adds_comp (when b f) g); [apply adds_when; ad|ad]
  | |- adds (fun s => s) _ => apply adds_quiet; exact quiet_id
  | |- adds (fun s => ?f (@?g s)) _ => eapply (adds_comp f g); [apply adds_quiet; qt|ad]
  | |- adds _ _ => apply adds_quiet; qt
  end.

Lemma quiet_mask c h bl : quiet (fun s =>
  let s := hd_eff c true h s in
  let iod := hd_iod c h s in
  let s := set_s_flg_net false (set_s_ngnss (length bl) s) in
  let s := if s_iodssr s =? iod then s
           else set_s_sig_n_p (s_sig_n s) (set_s_iodssr_p (s_iodssr s) (set_s_sat_n_p (s_sat_n s) s)) in
  let s := set_s_iodssr iod (set_s_nsat_n 0 (set_s_nsig_n [] (set_s_sys_n [] (set_s_gnss_n [] (set_s_sat_n []
           (set_s_nsig_total 0 (set_s_sig_n [] (set_s_nsig_max 0 (set_s_nm_idx (repeat 0 16)
           (set_s_dcm [] (set_s_gnss_idx [] (set_s_nsat_g (repeat 0 16) s)))))))))))) in
  eff (blk_eff c) bl s).
Proof.
  intros s. cbv zeta.
  match goal with |- context [eff (blk_eff c) bl ?t] =>
    assert (Q : quiet (eff (blk_eff c) bl)) by (apply quiet_eff; apply quiet_blk);
    assert (El : s_lc t = s_lc s) end.
  { cbn. match goal with |- context [if ?b then _ else _] => destruct b end; cbn; apply hd_lc. }
  match goal with |- context [eff (blk_eff c) bl ?t] => destruct (Q t) as [A B] end.
  split; [now rewrite A, El|]. intros n. rewrite B. unfold lcat. now rewrite El.
Qed.

Lemma msg_adds c its m s0 : wf_msg c its s0 m ->
  length (s_lc s0) = 33%nat -> length (s_lc (msg_eff c its m s0)) = 33%nat /\
  forall n b, 0 <= n -> 0 <= b -> bit_of (msg_eff c its m s0) n b = bit_of s0 n b || provides m n b.
Proof.
  Ltac cutF s0 Hl m :=
    match goal with |- length (s_lc ?S) = _ /\ _ =>
      let F := (eval pattern s0 in S) in
      match F with ?f _ => cut (adds f (provides m)); [intros HA; exact (HA s0 Hl)|] end end.
  Ltac fin_p := intros; cbn -[Z.eqb Z.gtb tMASK]; unfold tMASK, tORBIT, tCLOCK, tCBIAS, tPBIAS, tSTEC, tTROP, tURA;
     repeat match goal with |- context [?a =? ?b] => destruct (a =? b) end; cbn; try reflexivity.
  intros Hw Hl. destruct m; cbn [wf_msg] in Hw.
  - cbn [msg_eff]. unfold mask_eff.
    match goal with |- context [eff (blk_eff c) bl ?t] => idtac end.
    destruct (quiet_mask c h bl s0) as [A B]. cbv zeta in A, B |- *.
    match goal with |- context [eff (blk_eff c) bl ?t] => set (u := eff (blk_eff c) bl t) in * end.
    assert (HA : adds (fun s => stamp 0 0 tMASK (flag_eff 0 tMASK s)) (provides (CMask h bl))).
    { eapply adds_ext; [ad|]; [lia|fin_p]. }
    rewrite Hl in A. destruct (HA u A) as [C D]. split; [exact C|]. intros n b Hn Hb. rewrite D by assumption.
    unfold bit_of. now rewrite B.
  - cbn [msg_eff]. cbv zeta. generalize (hd_iod c h s0). intros X. cutF s0 Hl (COrb h v).
    eapply adds_ext; [ad|]; [lia|fin_p].
  - cbn [msg_eff]. cbv zeta. generalize (hd_iod c h s0). intros X.
    generalize (s_gnss_idx (udi_eff tCLOCK (m_udi h) (set_s_flg_net false (hd_eff c false h s0)))). intros gi.
    cutF s0 Hl (CClk h dcm v). destruct (c_has c); (eapply adds_ext; [ad|]; [lia|fin_p]).
  - cbn [msg_eff]. cbv zeta. generalize (hd_iod c h s0). intros X. cutF s0 Hl (CCb h v).
    eapply adds_ext; [ad|]; [lia|fin_p].
  - cbn [msg_eff]. cbv zeta. generalize (hd_iod c h s0). intros X. cutF s0 Hl (CPb h v).
    eapply adds_ext; [ad|]; [lia|fin_p].
  - cbn [msg_eff]. cbv zeta. generalize (hd_iod c h s0). intros X. cutF s0 Hl (CBias h cb pb inet m v).
    destruct Hw as (_ & (Hi & _) & _). unfold ub in Hi. cbn in Hi.
    destruct cb, pb; cbn [when]; (eapply adds_ext; [ad|]; [lia..|fin_p]).
  - cbn [msg_eff]. cbv zeta. cutF s0 Hl (CUra h v). eapply adds_ext; [ad|]; [lia|fin_p].
  - cbn [msg_eff]. cbv zeta. cutF s0 Hl (CStec h st inet m v).
    destruct Hw as (_ & _ & _ & (Hi & _) & _). unfold ub in Hi. cbn in Hi. eapply adds_ext; [ad|]; [lia|fin_p].
  - cbn [msg_eff]. cbv zeta. cutF s0 Hl (CGrid h tt_ rg inet m q v).
    destruct Hw as (_ & _ & _ & _ & (Hi & _) & _). unfold ub in Hi. cbn in Hi. eapply adds_ext; [ad|]; [lia|fin_p].
  - cbn [msg_eff]. cbv zeta.
    assert (Q : quiet (fun s => set_s_sinfo (splice (s_sinfo (set_s_flg_net false s0)) (length w * 40 * Z.to_nat n) (encs (bitsof 40) w)) (set_s_flg_net false s)))
      by (apply quiet_lc; reflexivity).
    destruct (Q s0) as [A B]. split; [now rewrite A|]. intros k b _ _. unfold bit_of. rewrite B. now rewrite orb_false_r.
  - cbn [msg_eff]. cbv zeta. cutF s0 Hl (CComb h orb clk net v).
    destruct net as [[k m]|].
    + destruct Hw as (_ & _ & (Hi & _) & _). unfold ub in Hi. cbn in Hi.
      destruct orb, clk; cbn [when]; (eapply adds_ext; [ad|]; [lia..|fin_p]).
    + destruct orb, clk; cbn [when]; (eapply adds_ext; [ad|]; [lia..|fin_p]).
  - cbn [msg_eff]. cbv zeta. cutF s0 Hl (CAtmos h inet ng q fn rs stec m v).
    destruct Hw as (_ & _ & (Hi & _) & _). unfold ub in Hi. cbn in Hi.
    destruct (trop_flag fn rs >? 0) eqn:Et, (stec >? 0) eqn:Es, fn, rs, (Z.testbit stec 0), (Z.testbit stec 1); cbn [when option_map];
      (eapply adds_ext; [ad|]; [lia..|unfold provides; rewrite ?Et, ?Es; fin_p]).
Qed.

(* ---------- status after a stream ---------- *)
Definition received (ms : list cmsg) (n b : Z) : Prop := exists m, In m ms /\ provides m n b = true.

Lemma stream_bits c : forall ms its s, wf_stream c its ms s -> length (s_lc s) = 33%nat ->
  length (s_lc (stream_eff c its ms s)) = 33%nat /\
  forall n b, 0 <= n -> 0 <= b ->
    bit_of (stream_eff c its ms s) n b = bit_of s n b || existsb (fun m => provides m n b) ms.
Proof.
  induction ms as [|m ms IH]; intros its s Hw Hl; cbn [stream_eff existsb].
  - split; [exact Hl|]. intros. now rewrite orb_false_r.
  - destruct Hw as (H1 & _ & H3).
    assert (H1' : wf_msg c its (set_s_subtype (sub_of m) s) m) by (destruct m; exact H1).
    destruct (msg_adds c its m (set_s_subtype (sub_of m) s) H1' Hl) as [A B].
    destruct (IH _ _ H3 A) as [C D]. split; [exact C|]. intros n b Hn Hb. rewrite D, B by assumption.
    rewrite <- orb_assoc. reflexivity.
Qed.

Lemma land_bits x m l : (forall b, 0 <= b -> Z.testbit m b = existsb (Z.eqb b) l) ->
  ((Z.land x m =? m) = true <-> forall b, In b l -> 0 <= b -> Z.testbit x b = true).
Proof.
  intros Hm. rewrite Z.eqb_eq. split.
  - intros H b Hin Hb. assert (E : Z.testbit (Z.land x m) b = Z.testbit m b) by now rewrite H.
    rewrite Z.land_spec in E. rewrite (Hm b Hb) in E.
    replace (existsb (Z.eqb b) l) with true in E.
    + now rewrite andb_true_r in E.
    + symmetry. apply existsb_exists. exists b. split; [assumption|apply Z.eqb_refl].
  - intros H. apply Z.bits_inj'. intros b Hb. rewrite Z.land_spec, (Hm b Hb).
    destruct (existsb (Z.eqb b) l) eqn:E; [|now rewrite andb_false_r].
    apply existsb_exists in E as (y & Hy & Ey). apply Z.eqb_eq in Ey. subst y. now rewrite (H b Hy Hb).
Qed.
Lemma testbit_small m k : 0 <= m < 2 ^ k -> forall b, k <= b -> Z.testbit m b = false.
Proof.
  intros Hm b Hb. destruct (Z.eq_dec m 0) as [->|]; [apply Z.testbit_0_l|].
  apply Z.bits_above_log2; [lia|]. assert (Z.log2 m < k) by (apply Z.log2_lt_pow2; lia). lia.
Qed.
Lemma mask_bits m l : 0 <= m < 128 ->
  forallb (fun b => Bool.eqb (Z.testbit m b) (existsb (Z.eqb b) l)) [0;1;2;3;4;5;6] = true ->
  forallb (fun b => b <? 7) l = true ->
  forall b, 0 <= b -> Z.testbit m b = existsb (Z.eqb b) l.
Proof.
  intros Hm H Hl b Hb. destruct (Z.lt_ge_cases b 7) as [Hs|Hs].
  - rewrite forallb_forall in H. apply eqb_prop, H. cbn. lia.
  - rewrite (testbit_small m 7) by (cbn; lia). symmetry. apply not_true_is_false. intros E.
    apply existsb_exists in E as (y & Hy & Ey). rewrite forallb_forall in Hl. specialize (Hl _ Hy). lia.
Qed.

Lemma chk_stat_bits s : 0 <= s_inet_ref s ->
  (chk_stat s = true <->
   (forall b, In b [0; 1; 2; 3] -> bit_of s 0 b = true) /\
   (forall b, In b [5; 6] -> bit_of s (s_inet_ref s) b = true) /\
   (s_local_pbias s = true -> bit_of s (s_inet_ref s) 4 = true)).
Proof.
  intros Hr. unfold chk_stat. destruct (Z.ltb_spec (s_inet_ref s) 0); [lia|]. clear H.
  set (cg := l_cstat (lcat s 0)). set (cl := l_cstat (lcat s (s_inet_ref s))).
  pose proof (land_bits cg 0x0f [0;1;2;3] (mask_bits 0x0f [0;1;2;3] ltac:(lia) eq_refl eq_refl)) as H1.
  pose proof (land_bits cl 0x60 [5;6] (mask_bits 0x60 [5;6] ltac:(lia) eq_refl eq_refl)) as H2.
  pose proof (land_bits cl 0x10 [4] (mask_bits 0x10 [4] ltac:(lia) eq_refl eq_refl)) as H3.
  unfold bit_of. fold cg cl.
  assert (E1 : (Z.land cg 0x0f =? 0x0f) = true <-> forall b, In b [0;1;2;3] -> Z.testbit cg b = true).
  { rewrite H1. split; intros G b Hb; [apply G; [assumption|cbn in Hb; lia]|intros; auto]. }
  assert (E2 : (Z.land cl 0x60 =? 0x60) = true <-> forall b, In b [5;6] -> Z.testbit cl b = true).
  { rewrite H2. split; intros G b Hb; [apply G; [assumption|cbn in Hb; lia]|intros; auto]. }
  assert (E3 : (Z.land cl 0x10 =? 0x10) = true <-> Z.testbit cl 4 = true).
  { rewrite H3. split; intros G; [apply G; [left; reflexivity|lia]|]. intros b [<-|[]] _. exact G. }
  clear H1 H2 H3. rewrite <- E1, <- E2, <- E3.
  destruct (Z.land cg 0x0f =? 0x0f), (Z.land cl 0x60 =? 0x60), (s_local_pbias s), (Z.land cl 0x10 =? 0x10); cbn; intuition discriminate.
Qed.

(** with no network selected the last entry of [lc] is consulted, which no message can fill *)
Lemma provides_32 c its s m b : wf_msg c its s m -> provides m 32 b = false.
Proof.
  intros Hw. destruct m; try reflexivity; cbn [wf_msg provides] in *.
  - destruct Hw as (_ & (Hi & _) & _). unfold ub in Hi. cbn in Hi. destruct (Z.eqb_spec 32 inet); [lia|reflexivity].
  - destruct Hw as (_ & _ & _ & (Hi & _) & _). unfold ub in Hi. cbn in Hi. destruct (Z.eqb_spec 32 inet); [lia|reflexivity].
  - destruct Hw as (_ & _ & _ & _ & (Hi & _) & _). unfold ub in Hi. cbn in Hi. destruct (Z.eqb_spec 32 inet); [lia|reflexivity].
  - destruct net as [[k m]|]; [|reflexivity]. destruct Hw as (_ & _ & (Hi & _) & _). unfold ub in Hi. cbn in Hi.
    destruct (Z.eqb_spec 32 k); [lia|reflexivity].
  - destruct Hw as (_ & _ & (Hi & _) & _). unfold ub in Hi. cbn in Hi. destruct (Z.eqb_spec 32 inet); [lia|reflexivity].
Qed.
Lemma stream_32 c b : forall ms its s, wf_stream c its ms s -> existsb (fun m => provides m 32 b) ms = false.
Proof.
  induction ms as [|m ms IH]; intros its s Hw; [reflexivity|]. destruct Hw as (H1 & _ & H3). cbn [existsb].
  rewrite (provides_32 c its s m b H1). exact (IH _ _ H3).
Qed.

Lemma received_ex ms n b : existsb (fun m => provides m n b) ms = true <-> received ms n b.
Proof. rewrite existsb_exists. reflexivity. Qed.

(** a receiver that has just been set up, with network [net] selected *)
Definition fresh (week : Z) (pb : bool) (grid : option (list Z)) (net : Z) : cst :=
  set_s_inet_ref net (cssr_init week pb grid).
Lemma fresh_bit week pb grid net n b : bit_of (fresh week pb grid net) n b = false.
Proof.
  unfold bit_of, fresh, lcat. cbn [s_lc set_s_inet_ref cssr_init].
  assert (E : forall k j, nth j (repeat lc_init k) lc_init = lc_init).
  { induction k as [|k IH]; intros [|j]; cbn [repeat nth]; auto. }
  rewrite E. apply Z.testbit_0_l.
Qed.
Lemma fresh_ctx week pb grid net : ctx [] (fresh week pb grid net).
Proof. repeat split. constructor. Qed.

Theorem chk_stat_exact c msg ms week pb grid net i mt st :
  wf_cfg c -> c_has c = false -> 0 <= net < 33 ->
  let s := fresh week pb grid net in
  wf_stream c [] ms s ->
  At msg i (enc_stream c [] ms ++ bitsof 12 mt ++ bitsof 4 st) -> ub 12 mt -> ub 4 st -> mt <> 4073 ->
  (chk_stat (fst (decode_cssr c msg i s)) = true <->
   (forall b, In b [0; 1; 2; 3] -> received ms 0 b) /\
   (forall b, In b [5; 6] -> received ms net b) /\ (pb = true -> received ms net 4)).
Proof.
  intros Hc Eh Hn s Hw Ha Hm Hs Hne.
  pose proof (loop_grows c msg (length msg / 16 + 1) i s) as [(_ & G2 & G3) _].
  fold (decode_cssr c msg i s) in G2, G3.
  assert (Hd : decode_cssr c msg i s = (stream_eff c [] ms s, ROther)).
  { apply decode_stream with (mt := mt) (st := st); auto. apply fresh_ctx. }
  rewrite Hd in *. cbn [fst] in *.
  destruct (stream_bits c ms [] s Hw eq_refl) as [_ B].
  change (s_inet_ref s) with net in G2. change (s_local_pbias s) with pb in G3.
  rewrite chk_stat_bits by lia. rewrite G2, G3.
  assert (E : forall n b, 0 <= n -> 0 <= b -> bit_of (stream_eff c [] ms s) n b = true <-> received ms n b).
  { intros n b H1 H2. rewrite B by assumption. unfold s. rewrite fresh_bit. cbn [orb]. apply received_ex. }
  split; intros (H1 & H2 & H3); (split; [|split]).
  - intros b Hb. apply E; [lia|cbn in Hb; lia|auto].
  - intros b Hb. apply E; [lia|cbn in Hb; lia|auto].
  - intros Hp. apply E; [lia|lia|auto].
  - intros b Hb. apply E; [lia|cbn in Hb; lia|auto].
  - intros b Hb. apply E; [lia|cbn in Hb; lia|auto].
  - intros Hp. apply E; [lia|lia|auto].
Qed.

Theorem chk_stat_no_network c msg ms week pb grid i mt st :
  wf_cfg c -> c_has c = false ->
  let s := fresh week pb grid (-1) in
  wf_stream c [] ms s ->
  At msg i (enc_stream c [] ms ++ bitsof 12 mt ++ bitsof 4 st) -> ub 12 mt -> ub 4 st -> mt <> 4073 ->
  chk_stat (fst (decode_cssr c msg i s)) = false.
Proof.
  intros Hc Eh s Hw Ha Hm Hs Hne.
  pose proof (loop_grows c msg (length msg / 16 + 1) i s) as [(_ & G2 & G3) _].
  fold (decode_cssr c msg i s) in G2, G3.
  assert (Hd : decode_cssr c msg i s = (stream_eff c [] ms s, ROther)).
  { apply decode_stream with (mt := mt) (st := st); auto. apply fresh_ctx. }
  rewrite Hd in *. cbn [fst] in *.
  destruct (stream_bits c ms [] s Hw eq_refl) as [_ B]. change (s_inet_ref s) with (-1) in G2.
  unfold chk_stat. rewrite G2. change (if -1 <? 0 then 33 + -1 else -1) with 32.
  assert (E : Z.testbit (l_cstat (lcat (stream_eff c [] ms s) 32)) 5 = false).
  { change (bit_of (stream_eff c [] ms s) 32 5 = false). rewrite B by lia. unfold s. rewrite fresh_bit.
    exact (stream_32 c 5 ms [] _ Hw). }
  destruct (negb (Z.land (l_cstat (lcat (stream_eff c [] ms s) 0)) 15 =? 15)); [reflexivity|].
  destruct (Z.land (l_cstat (lcat (stream_eff c [] ms s) 32)) 96 =? 96) eqn:F; [|reflexivity].
  apply (land_bits _ 0x60 [5;6] (mask_bits 0x60 [5;6] ltac:(lia) eq_refl eq_refl)) with (b := 5) in F;
    [congruence|left; reflexivity|lia].
Qed.
