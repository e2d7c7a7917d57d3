(** Whole streams of compact-SSR messages: decoding the transmitted bits has exactly the meaning of
    the transmitted messages; and, for arbitrary buffers, the message loop advances and stops. *)
From Verif Require Import Base BaseFacts BitProofs CssrModel CssrSpec CssrFacts CssrCodec CssrMask.
From Coq Require Import ZifyBool ZifyNat.
Open Scope Z_scope.

Definition msg_nodup (m : cmsg) : Prop :=
  match m with CMask _ bl => NoDup (map i_sat (concat (map blk_items bl))) | _ => True end.

Lemma sub_ok c msg its m i s : wf_cfg c -> c_has c = false -> ctx its s -> wf_msg c its s m -> msg_nodup m ->
  At msg i (enc_body c its m) ->
  decode_sub c msg (sub_of m) i s = (msg_eff c its m s, Some (Some (i + length (enc_body c its m))%nat)) /\
  ctx (items_after its m) (msg_eff c its m s).
Proof.
  intros Hc Eh Hx Hw Hn Ha. destruct m.
  - destruct Hw as (H1 & H2 & H3). split; [now apply mask_ok|now apply mask_ctx].
  - now apply (orb_ok c msg Hc).
  - now apply (clk_ok c msg Hc).
  - now apply (cb_ok c msg Hc).
  - now apply (pb_ok c msg Hc).
  - now apply (bias_ok c msg Hc).
  - now apply (ura_ok c msg).
  - now apply (stec_ok c msg).
  - now apply (grid_ok c msg).
  - now apply (si_ok c msg).
  - now apply (comb_ok c msg Hc).
  - now apply (atmos_ok c msg).
Qed.

Lemma sub_of_ub m : ub 4 (sub_of m).
Proof. destruct m; unfold ub; cbn; lia. Qed.

Lemma enc_msg_len c its m : (16 <= length (enc_msg c its m))%nat.
Proof. unfold enc_msg. rewrite !app_length, !bitsof_length. lia. Qed.
Lemma enc_stream_len c : forall ms its, (16 * length ms <= length (enc_stream c its ms))%nat.
Proof.
  induction ms as [|m ms IH]; intros its; cbn [enc_stream length]; [lia|].
  rewrite app_length. pose proof (enc_msg_len c its m). pose proof (IH (items_after its m)). lia.
Qed.

(** one iteration of the loop on a transmitted message *)
Lemma loop_step c msg its m i s fuel : wf_cfg c -> c_has c = false -> ctx its s -> wf_msg c its s m -> msg_nodup m ->
  At msg i (enc_msg c its m) ->
  decode_loop c msg (S fuel) i s =
  decode_loop c msg fuel (i + length (enc_msg c its m))%nat (msg_eff c its m (set_s_subtype (sub_of m) s)).
Proof.
  intros Hc Eh Hx Hw Hn Ha. unfold enc_msg in Ha. apply At_app in Ha as [Ha1 Ha]. apply At_app in Ha as [Ha2 Ha3].
  cbn [decode_loop].
  rewrite (getu_val msg i 12 4073) by (first [exact Ha1 | unfold ub; cbn; lia]).
  rewrite bitsof_length in Ha2.
  rewrite (getu_val msg (i + 12) 4 (sub_of m)) by (first [exact Ha2 | apply sub_of_ub]).
  change (negb (4073 =? 4073)) with false. cbv iota.
  destruct (sub_ok c msg its m (i + 16)%nat (set_s_subtype (sub_of m) s)) as [H1 H2]; auto.
  { eapply At_pos; [exact Ha3|len; lia]. }
  rewrite H1. 
  assert (E : (i + length (enc_msg c its m))%nat = (i + 16 + length (enc_body c its m))%nat) by (unfold enc_msg; len; lia).
  rewrite E. destruct (Nat.eqb_spec (i + 16 + length (enc_body c its m)) 0); [lia|reflexivity].
Qed.

Lemma stream_loop c msg : wf_cfg c -> c_has c = false -> forall ms its i s fuel,
  ctx its s -> wf_stream c its ms s -> At msg i (enc_stream c its ms) ->
  decode_loop c msg (length ms + fuel) i s =
  decode_loop c msg fuel (i + length (enc_stream c its ms))%nat (stream_eff c its ms s).
Proof.
  intros Hc Eh. induction ms as [|m ms IH]; intros its i s fuel Hx Hw Ha.
  - cbn. now rewrite Nat.add_0_r.
  - destruct Hw as (Hw1 & Hw2 & Hw3). cbn [enc_stream] in Ha. apply At_app in Ha as [Ha1 Ha2].
    change (length (m :: ms) + fuel)%nat with (S (length ms + fuel)).
    rewrite (loop_step c msg its m) by assumption.
    rewrite (IH (items_after its m)); auto.
    + cbn [enc_stream stream_eff]. rewrite app_length, Nat.add_assoc. reflexivity.
    + assert (Hx' : ctx its (set_s_subtype (sub_of m) s)) by exact Hx.
      unfold enc_msg in Ha1. apply At_app in Ha1 as [_ Ha1]. apply At_app in Ha1 as [_ Ha1].
      refine (proj2 (sub_ok c msg its m _ _ Hc Eh Hx' _ Hw2 Ha1)). destruct m; exact Hw1.
Qed.

(** the decoder run on the transmitted bits: a foreign message type ends it ... *)
Theorem decode_stream c msg ms its i s mt st :
  wf_cfg c -> c_has c = false -> ctx its s -> wf_stream c its ms s -> ub 12 mt -> mt <> 4073 -> ub 4 st ->
  At msg i (enc_stream c its ms ++ bitsof 12 mt ++ bitsof 4 st) ->
  decode_cssr c msg i s = (stream_eff c its ms s, ROther).
Proof.
  intros Hc Eh Hx Hw Hmt Hne Hst Ha. pose proof (At_bound _ _ _ Ha) as Hb.
  apply At_app in Ha as [Ha1 Ha]. apply At_app in Ha as [Ha2 Ha3].
  pose proof (enc_stream_len c ms its) as Hl. rewrite !app_length, !bitsof_length in *.
  unfold decode_cssr.
  assert (Hf : exists f, (length msg / 16 + 1 = length ms + S f)%nat).
  { assert (length ms + 1 <= length msg / 16)%nat by (apply Nat.div_le_lower_bound; lia).
    exists (length msg / 16 - length ms)%nat. lia. }
  destruct Hf as [f ->]. rewrite (stream_loop c msg Hc Eh ms its) by assumption.
  cbn [decode_loop]. rewrite (getu_val msg _ 12 mt) by assumption.
  rewrite (getu_val msg _ 4 st) by assumption.
  destruct (Z.eqb_spec mt 4073); [contradiction|]. reflexivity.
Qed.
(** ... and so does the end of the buffer, with bitstruct's exception after the same updates *)
Theorem decode_stream_end c msg ms its i s :
  wf_cfg c -> c_has c = false -> ctx its s -> wf_stream c its ms s ->
  At msg i (enc_stream c its ms) -> (length msg < i + length (enc_stream c its ms) + 16)%nat ->
  decode_cssr c msg i s = (stream_eff c its ms s, RExc).
Proof.
  intros Hc Eh Hx Hw Ha Hend. pose proof (At_bound _ _ _ Ha) as Hb.
  pose proof (enc_stream_len c ms its) as Hl. unfold decode_cssr.
  assert (Hf : exists f, (length msg / 16 + 1 = length ms + S f)%nat).
  { assert (length ms <= length msg / 16)%nat by (apply Nat.div_le_lower_bound; lia).
    exists (length msg / 16 - length ms)%nat. lia. }
  destruct Hf as [f ->]. rewrite (stream_loop c msg Hc Eh ms its) by assumption.
  cbn [decode_loop]. set (j := (i + length (enc_stream c its ms))%nat) in *.
  destruct (getu msg j 12); [|reflexivity]. unfold getu.
  destruct (Nat.leb_spec (j + 12 + 4) (length msg)); [lia|reflexivity].
Qed.

(* ---------- positions never go back ---------- *)
Definition post {A} (m : M A) (P : A -> Prop) : Prop := forall s s' a, m s = (s', Some a) -> P a.
Lemma post_bind {A B} (m : M A) (k : A -> M B) P Q :
  post m P -> (forall a, P a -> post (k a) Q) -> post (mbind m k) Q.
Proof.
  intros H1 H2 s s' b H. unfold mbind in H. destruct (m s) as [s1 [a|]] eqn:E; [|discriminate].
  exact (H2 a (H1 _ _ _ E) _ _ _ H).
Qed.
Lemma post_any {A} (m : M A) : post m (fun _ => True).
Proof. now intros s s' a _. Qed.
Lemma post_step {A B} (m : M A) (k : A -> M B) Q : (forall a, post (k a) Q) -> post (mbind m k) Q.
Proof. intros H. eapply post_bind; [apply post_any|]. auto. Qed.
Lemma post_ret {A} (a : A) (P : A -> Prop) : P a -> post (ret a) P.
Proof. intros H s s' b [= _ <-]. exact H. Qed.
Lemma post_weak {A} (m : M A) (P Q : A -> Prop) : post m P -> (forall a, P a -> Q a) -> post m Q.
Proof. intros H1 H2 s s' a H. eauto. Qed.
Definition ge (i j : nat) : Prop := (i <= j)%nat.
Lemma post_forM n : forall k i (f : nat -> nat -> M nat), (forall k i, post (f k i) (ge i)) -> post (forM n k f i) (ge i).
Proof.
  induction n as [|n IH]; intros k i f Hf; cbn [forM].
  - apply post_ret. unfold ge. lia.
  - eapply post_bind; [apply Hf|]. intros j Hj. eapply post_weak; [apply IH, Hf|]. unfold ge in *. lia.
Qed.
Lemma post_eachM {X} : forall (l : list X) i (f : X -> nat -> M nat), (forall x i, post (f x i) (ge i)) -> post (eachM l f i) (ge i).
Proof.
  induction l as [|x l IH]; intros i f Hf; cbn [eachM].
  - apply post_ret. unfold ge. lia.
  - eapply post_bind; [apply Hf|]. intros j Hj. eapply post_weak; [apply IH, Hf|]. unfold ge in *. lia.
Qed.
Lemma post_if {A} (b : bool) (m1 m2 : M A) P : post m1 P -> post m2 P -> post (if b then m1 else m2) P.
Proof. destruct b; auto. Qed.

Lemma head_ge c msg mask i : post (decode_head c msg mask i) (fun p => ge i (snd p)).
Proof.
  unfold decode_head. apply post_if.
  - apply post_bind with (P := fun p => ge i (snd p)).
    + apply post_if; [apply post_ret; unfold ge; cbn; lia|]. apply post_step. intros. apply post_ret. unfold ge; cbn; lia.
    + intros [u j] Hj. do 2 (apply post_step; intros). apply post_ret. exact Hj.
  - apply post_bind with (P := ge i).
    + apply post_if; do 2 (apply post_step; intros); apply post_ret; unfold ge; lia.
    + intros j Hj. do 4 (apply post_step; intros). apply post_ret. unfold ge in *; cbn; lia.
Qed.
Lemma coeff_ge msg st i : post (decode_stec_coeff msg st i) (fun p => ge i (snd p)).
Proof.
  unfold decode_stec_coeff. apply post_step. intros a.
  apply post_bind with (P := fun p => ge i (snd p)).
  { apply post_if; [do 2 (apply post_step; intros)|]; apply post_ret; unfold ge; cbn; lia. }
  intros [[b d] j] Hj. cbn in Hj. apply post_bind with (P := fun p => ge i (snd p)).
  { apply post_if; [apply post_step; intros|]; apply post_ret; unfold ge in *; cbn; lia. }
  intros [e j2] Hj2. cbn in Hj2. apply post_bind with (P := fun p => ge i (snd p)).
  { apply post_if; [do 2 (apply post_step; intros)|]; apply post_ret; unfold ge in *; cbn; lia. }
  intros [[f g] j3] Hj3. apply post_ret. exact Hj3.
Qed.
Lemma tropfn_ge msg i : post (trop_fn msg i) (fun p => ge i (snd p)).
Proof.
  unfold trop_fn. do 2 (apply post_step; intros).
  apply post_bind with (P := fun p => ge i (snd p)).
  { apply post_if; [do 2 (apply post_step; intros)|]; apply post_ret; unfold ge; cbn; lia. }
  intros [[b d] j] Hj. cbn in Hj. apply post_bind with (P := fun p => ge i (snd p)).
  { apply post_if; [apply post_step; intros|]; apply post_ret; unfold ge in *; cbn; lia. }
  intros [e j2] Hj2. apply post_ret. exact Hj2.
Qed.

Definition oge (i : nat) (o : option nat) : Prop := match o with Some j => (i <= j)%nat | None => True end.

Lemma orb_sat_ge c msg sat sys inet i : post (decode_orb_sat c msg i sat sys inet) (ge i).
Proof. unfold decode_orb_sat. cbv zeta. do 5 (apply post_step; intros). apply post_ret. unfold ge. lia. Qed.
Lemma clk_sat_ge c msg sat inet i : post (decode_clk_sat c msg i sat inet) (ge i).
Proof. unfold decode_clk_sat. cbv zeta. do 3 (apply post_step; intros). apply post_ret. unfold ge. lia. Qed.
Lemma cb_sat_ge c msg sat r inet i : post (decode_cbias_sat c msg i sat r inet) (ge i).
Proof. unfold decode_cbias_sat. do 2 (apply post_step; intros). apply post_ret. unfold ge. lia. Qed.
Lemma pb_sat_ge c msg sat r inet i : post (decode_pbias_sat c msg i sat r inet) (ge i).
Proof. unfold decode_pbias_sat. do 3 (apply post_step; intros). apply post_ret. unfold ge. lia. Qed.

(** automation: walk through a decoder body *)
Ltac pg :=
  lazymatch goal with
  | |- post (mbind (forM _ _ _ tt) _) _ => apply post_step; intros; pg
  | |- post (mbind (eachM _ _ tt) _) _ => apply post_step; intros; pg
  | |- post (mbind (forM ?n ?k ?f ?i) _) _ => apply post_bind with (P := ge i); [apply post_forM; intros; pg | intros; pg]
  | |- post (mbind (eachM ?l ?f ?i) _) _ => apply post_bind with (P := ge i); [apply post_eachM; intros; pg | intros; pg]
  | |- post (forM ?n ?k ?f ?i) _ => eapply post_weak; [apply post_forM; intros; pg | unfold ge in *; intros; lia]
  | |- post (eachM ?l ?f ?i) _ => eapply post_weak; [apply post_eachM; intros; pg | unfold ge in *; intros; lia]
  | |- post (mbind (decode_head ?c ?msg ?mask ?i) _) _ =>
      apply post_bind with (P := fun p => ge i (snd p)); [apply head_ge | intros [? ?] ?; cbn [snd] in *; pg]
  | |- post (mbind (decode_stec_coeff ?msg ?st ?i) _) _ =>
      apply post_bind with (P := fun p => ge i (snd p)); [apply coeff_ge | intros [? ?] ?; cbn [snd] in *; pg]
  | |- post (mbind (trop_fn ?msg ?i) _) _ =>
      apply post_bind with (P := fun p => ge i (snd p)); [apply tropfn_ge | intros [[[[? ?] ?] ?] ?] ?; cbn [snd] in *; pg]
  | |- post (mbind (decode_orb_sat _ _ ?i _ _ _) _) _ => apply post_bind with (P := ge i); [apply orb_sat_ge | intros; pg]
  | |- post (mbind (decode_clk_sat _ _ ?i _ _) _) _ => apply post_bind with (P := ge i); [apply clk_sat_ge | intros; pg]
  | |- post (mbind (decode_cbias_sat _ _ ?i _ _ _) _) _ => apply post_bind with (P := ge i); [apply cb_sat_ge | intros; pg]
  | |- post (mbind (decode_pbias_sat _ _ ?i _ _ _) _) _ => apply post_bind with (P := ge i); [apply pb_sat_ge | intros; pg]
  | |- post (mbind (if _ then _ else ret (_, _, ?i)) _) _ =>
      apply post_bind with (P := fun p => ge i (snd p)); [apply post_if; pg | intros [[? ?] ?] ?; cbn [snd] in *; pg]
  | |- post (mbind (if _ then _ else ret (_, ?i)) _) _ =>
      apply post_bind with (P := fun p => ge i (snd p)); [apply post_if; pg | intros [? ?] ?; cbn [snd] in *; pg]
  | |- post (mbind (if _ then _ else ret tt) _) _ => apply post_step; intros; pg
  | |- post (mbind (if _ then _ else ret ?i) _) _ =>
      apply post_bind with (P := ge i); [apply post_if; pg | intros; pg]
  | |- post (mbind _ _) _ => apply post_step; intros; pg
  | |- post (ret (Some _)) _ => apply post_ret; unfold ge, oge in *; lia
  | |- post (ret None) _ => apply post_ret; exact I
  | |- post (ret _) _ => apply post_ret; unfold ge, oge in *; cbn [snd] in *; lia
  | |- post (if _ then _ else _) _ => apply post_if; pg
  | |- post (let _ := _ in _) _ => cbv zeta; pg
  end.

Lemma blk_ge c msg i : post (mask_blk c msg i) (ge i).
Proof.
  unfold mask_blk. do 5 (apply post_step; intros). cbv zeta.
  destruct (decode_mask a0 40 1) as [prns nsat]. destruct (decode_mask a1 16 0) as [sig nsig].
  apply post_step; intros. pg.
Qed.
Lemma mask_ge c msg i : post (decode_cssr_mask c msg i) (oge i).
Proof.
  unfold decode_cssr_mask. apply post_bind with (P := fun p => ge i (snd p)); [apply head_ge|]. intros [h j] Hj. cbn [snd] in Hj.
  do 2 (apply post_step; intros). cbv zeta. apply post_step; intros.
  apply post_bind with (P := ge (j + 4)).
  { apply post_forM. intros. apply blk_ge. }
  intros k Hk. do 2 (apply post_step; intros). apply post_ret. unfold ge, oge in *. destruct (c_has c); lia.
Qed.
Lemma orb_ge c msg i : post (decode_cssr_orb c msg i) (oge i).
Proof. unfold decode_cssr_orb. pg. Qed.
Lemma clk_ge c msg i : post (decode_cssr_clk c msg i) (oge i).
Proof. unfold decode_cssr_clk. pg. Qed.
Lemma cb_ge c msg i : post (decode_cssr_cbias c msg i) (oge i).
Proof. unfold decode_cssr_cbias. pg. Qed.
Lemma pb_ge c msg i : post (decode_cssr_pbias c msg i) (oge i).
Proof. unfold decode_cssr_pbias. pg. Qed.
Lemma bias_ge c msg i : post (decode_cssr_bias c msg i) (oge i).
Proof. unfold decode_cssr_bias. pg. Qed.
Lemma ura_ge c msg i : post (decode_cssr_ura c msg i) (oge i).
Proof. unfold decode_cssr_ura. pg. Qed.
Lemma stec_ge c msg i : post (decode_cssr_stec c msg i) (oge i).
Proof. unfold decode_cssr_stec. pg. Qed.
Lemma grid_ge c msg i : post (decode_cssr_grid c msg i) (oge i).
Proof. unfold decode_cssr_grid. pg. Qed.
Lemma comb_ge c msg i : post (decode_cssr_comb c msg i) (oge i).
Proof. unfold decode_cssr_comb. pg. Qed.
Lemma atmos_ge c msg i : post (decode_cssr_atmos c msg i) (oge i).
Proof. unfold decode_cssr_atmos. pg. Qed.
Lemma si_ge msg i : post (decode_cssr_sinfo msg i) (oge i).
Proof.
  unfold decode_cssr_sinfo. do 4 (apply post_step; intros). cbv zeta.
  apply post_bind with (P := fun p => ge (i + 6) (fst p)).
  2:{ intros [k l] Hk. apply post_ret. unfold ge, oge in *. cbn in Hk. lia. }
  assert (H : forall n k x y, ge (i + 6) x -> post (forM n k (fun _ (a : nat * nat) =>
       let (i, j) := a in
       d <~ ru msg i 40 ;;
       si <~ ask s_sinfo ;; si <~ lift (putu si j 40 d) ;; modify (set_s_sinfo si) ;;;
       ret ((i + 40)%nat, (j + 40)%nat)) (x, y)) (fun p => ge (i + 6) (fst p))).
  { induction n as [|n IH]; intros k x y Hx; cbn [forM].
    - apply post_ret. exact Hx.
    - apply post_bind with (P := fun p => ge (i + 6) (fst p)).
      + do 4 (apply post_step; intros). apply post_ret. unfold ge in *. cbn. lia.
      + intros [x' y'] Hx'. now apply IH. }
  apply H. unfold ge. lia.
Qed.

Lemma sub_ge c msg st i : post (decode_sub c msg st i) (oge i).
Proof.
  unfold decode_sub.
  repeat match goal with |- post (match ?x with _ => _ end) _ => destruct x end;
    first [ apply mask_ge | apply orb_ge | apply clk_ge | apply cb_ge | apply pb_ge | apply bias_ge | apply ura_ge
          | apply stec_ge | apply grid_ge | apply si_ge | apply comb_ge | apply atmos_ge
          | apply post_ret; cbn; lia ].
Qed.

(** the outcome does not depend on the fuel once it is large enough *)
Lemma loop_fuel c msg : forall f1 f2 i s,
  (length msg < i + 16 + 16 * f1)%nat -> (f1 < f2)%nat ->
  decode_loop c msg (S f1) i s = decode_loop c msg f2 i s /\ snd (decode_loop c msg (S f1) i s) <> RFuel.
Proof.
  assert (Hbase : forall i mt st, getu msg i 12 = Some mt -> getu msg (i + 12) 4 = Some st -> (i + 16 <= length msg)%nat).
  { intros i mt st _ H. unfold getu in H. destruct (Nat.leb_spec (i + 12 + 4) (length msg)); [lia|discriminate]. }
  induction f1 as [|f1 IH]; intros f2 i s Hl Hf; (destruct f2 as [|f2]; [lia|]).
  - cbn [decode_loop].
    destruct (getu msg i 12) as [mt|] eqn:E1; [|split; [reflexivity|discriminate]].
    destruct (getu msg (i + 12) 4) as [st|] eqn:E2; [|split; [reflexivity|discriminate]].
    pose proof (Hbase _ _ _ E1 E2). lia.
  - replace (decode_loop c msg (S (S f1)) i s) with
      (match getu msg i 12, getu msg (i + 12) 4 with
    | Some mt, Some st =>
      if negb (mt =? 4073) then (s, ROther) else
      let s := set_s_subtype st s in
      match decode_sub c msg st (i + 16) s with
      | (s, None) => (s, RExc)
      | (s, Some None) => (s, RStop)
      | (s, Some (Some i)) => if (i =? 0)%nat then (s, RStop) else decode_loop c msg (S f1) i s
      end
    | _, _ => (s, RExc)
    end) by reflexivity.
    cbn [decode_loop].
    destruct (getu msg i 12) as [mt|] eqn:E1; [|split; [reflexivity|discriminate]].
    destruct (getu msg (i + 12) 4) as [st|] eqn:E2; [|split; [reflexivity|discriminate]].
    destruct (negb (mt =? 4073)); [split; [reflexivity|discriminate]|]. cbv zeta.
    destruct (decode_sub c msg st (i + 16) (set_s_subtype st s)) as [s' [[j|]|]] eqn:E3;
      try (split; [reflexivity|discriminate]).
    pose proof (sub_ge c msg st (i + 16) _ _ _ E3) as Hj. cbn in Hj.
    destruct (j =? 0)%nat; [split; [reflexivity|discriminate]|].
    apply (IH f2 j s'); lia.
Qed.

Lemma div16 n : (n < 16 + 16 * (n / 16))%nat.
Proof. pose proof (Nat.div_mod n 16 ltac:(lia)). pose proof (Nat.mod_upper_bound n 16 ltac:(lia)). lia. Qed.

(** the loop ends on every buffer, from every state *)
Theorem decode_cssr_stops c msg i s : snd (decode_cssr c msg i s) <> RFuel.
Proof.
  unfold decode_cssr. rewrite Nat.add_1_r. pose proof (div16 (length msg)).
  refine (proj2 (loop_fuel c msg (length msg / 16) (S (length msg / 16)) i s _ _)); lia.
Qed.

(** the loop equation of the source, without fuel *)
Theorem decode_cssr_eq c msg i s :
  decode_cssr c msg i s =
  match getu msg i 12, getu msg (i + 12) 4 with
  | Some mt, Some st =>
    if mt =? 4073 then
      match decode_sub c msg st (i + 16) (set_s_subtype st s) with
      | (s', None) => (s', RExc)
      | (s', Some None) => (s', RStop)
      | (s', Some (Some j)) => decode_cssr c msg j s'
      end
    else (s, ROther)
  | _, _ => (s, RExc)
  end.
Proof.
  unfold decode_cssr at 1. rewrite Nat.add_1_r. pose proof (div16 (length msg)) as Hd. cbn [decode_loop].
  destruct (getu msg i 12) as [mt|] eqn:E1; [|reflexivity].
  destruct (getu msg (i + 12) 4) as [st|] eqn:E2; [|reflexivity].
  destruct (mt =? 4073); cbn [negb]; [|reflexivity].
  destruct (decode_sub c msg st (i + 16) (set_s_subtype st s)) as [s' [[j|]|]] eqn:E3; try reflexivity.
  pose proof (sub_ge c msg st (i + 16) _ _ _ E3) as Hj. cbn in Hj.
  destruct (Nat.eqb_spec j 0); [lia|].
  unfold decode_cssr. rewrite Nat.add_1_r.
  assert (Hlen : (i + 16 <= length msg)%nat).
  { unfold getu in E2. destruct (Nat.leb_spec (i + 12 + 4) (length msg)); [lia|discriminate]. }
  destruct (length msg / 16)%nat as [|f] eqn:Ef; [lia|].
  refine (proj1 (loop_fuel c msg f (S (S f)) j s' _ _)); lia.
Qed.

(** every understood message advances the position by at least its 16-bit type field *)
Theorem decode_sub_advances c msg st i s s' j :
  decode_sub c msg st (i + 16) s = (s', Some (Some j)) -> (i + 16 <= j)%nat.
Proof. intros H. exact (sub_ge c msg st (i + 16) _ _ _ H). Qed.
