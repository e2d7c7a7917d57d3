From Coq Require Import ZArith List Lia Bool ZifyBool ZifyNat.
From Verif Require Import SatModel SatSpec SatProofs CssrState CssrSpec CssrFacts SbasProofs BdsModel BdsSpec.
From Verif Require Import FieldFacts BdsProofs.
Import ListNotations.
Notation length := List.length.
Open Scope Z_scope.

(* ---------- accuracy ---------- *)
Lemma set_b_ura_get u s : b_ura (set_b_ura u s) = u /\ b_sat_n (set_b_ura u s) = b_sat_n s /\ mask_part (set_b_ura u s) = mask_part s /\
  orb_part (set_b_ura u s) = orb_part s /\ clk_part (set_b_ura u s) = clk_part s /\ b_cbias (set_b_ura u s) = b_cbias s.
Proof. destruct s. repeat split. Qed.
Lemma ura_loop_ok msg st : 0 <= st -> forall l k i s, NoDup (b_sat_n s) -> Forall (fun c => U 3 (fst c) /\ U 3 (snd c)) l ->
  At msg i (enc (flat_map (fun c => [3 # fst c; 3 # snd c]) l)) ->
  exists s', ura_loop msg i (length l) k st s = Some s' /\
    (forall j a, nth_error (b_sat_n s) j = Some a ->
       zget a (b_ura s') = match entry l (Z.to_nat (st * 70) + k) j with Some c => Some c | None => zget a (b_ura s) end) /\
    (forall a, ~ In a (b_sat_n s) -> zget a (b_ura s') = zget a (b_ura s)) /\
    b_sat_n s' = b_sat_n s /\ mask_part s' = mask_part s /\ orb_part s' = orb_part s /\ clk_part s' = clk_part s /\ b_cbias s' = b_cbias s.
Proof.
  intros Hst. induction l as [|c l IH]; intros k i s N F A.
  - exists s. split; [reflexivity|]. split; [|repeat split; auto]. intros j a _. unfold entry.
    destruct (_ <=? j)%nat; [rewrite (proj2 (nth_error_None [] _)) by (cbn; lia)|]; auto.
  - inversion F as [|? ? [Hc1 Hc2] F']; subst. cbn [flat_map] in A. rewrite enc_app in A. apply At_app in A as [A B].
    cbn [length ura_loop]. set (p := (Z.to_nat (st * 70) + k)%nat).
    replace (Z.to_nat (st * 70 + Z.of_nat k)) with p by (unfold p; lia).
    erewrite (getu_at _ _ _ 0%nat _ (fst c) _ A); [|reflexivity|rng0|lia]. cbn [bind].
    erewrite (getu_at _ _ _ 3%nat _ (snd c) _ A); [|reflexivity|rng0|lia]. cbn [bind].
    set (t := match nth_error (b_sat_n s) p with None => s | Some a => set_b_ura (zset a (fst c, snd c) (b_ura s)) s end).
    assert (Q : b_sat_n t = b_sat_n s /\ mask_part t = mask_part s /\ orb_part t = orb_part s /\ clk_part t = clk_part s /\ b_cbias t = b_cbias s).
    { unfold t. destruct (nth_error _ _); [apply set_b_ura_get|auto]. }
    assert (V : forall a, zget a (b_ura t) = match nth_error (b_sat_n s) p with Some b => if b =? a then Some c else zget a (b_ura s) | None => zget a (b_ura s) end).
    { intros a. unfold t. destruct (nth_error _ _) as [b|]; [|reflexivity]. destruct (set_b_ura_get (zset b (fst c, snd c) (b_ura s)) s) as (-> & _).
      destruct (Z.eqb_spec b a) as [<-|Nb]; [rewrite zget_zset_same; now destruct c|]. now rewrite zget_zset_other by assumption. }
    clearbody t. destruct Q as (Q1 & Q2 & Q3 & Q4 & Q5).
    destruct (IH (S k) (i + 6)%nat t) as (s' & E & K1 & K2 & K3 & K4 & K5 & K6 & K7); [now rewrite Q1|assumption|exact B|].
    exists s'. rewrite Q1 in *. rewrite Q2 in *. rewrite Q3 in *. rewrite Q4 in *. rewrite Q5 in *. split; [exact E|]. split; [|split; [|auto 10]].
    + intros j b Hb. specialize (K1 j b Hb). rewrite K1, V. rewrite entry_S.
      replace (Z.to_nat (st * 70) + S k)%nat with (S p) by (unfold p; lia).
      destruct (Nat.eqb_spec j p) as [->|Nj].
      { rewrite Hb, Z.eqb_refl, entry_beyond by lia. reflexivity. }
      { destruct (entry l (S p) j); [reflexivity|]. destruct (nth_error (b_sat_n s) p) as [a|] eqn:Ea; [|reflexivity].
        destruct (Z.eqb_spec a b) as [->|]; [|reflexivity]. destruct Nj. eapply nodup_pos; eassumption. }
    + intros b Hb. rewrite (K2 b Hb), V. destruct (nth_error (b_sat_n s) p) as [a|] eqn:Ea; [|reflexivity].
      destruct (Z.eqb_spec a b) as [<-|]; [|reflexivity]. destruct Hb. eapply nth_error_In, Ea.
Qed.
Lemma decode_ura_eq n msg s st iodp : decode_head msg 6 = Some (b_iodssr s) -> getu msg 29 4 = Some iodp -> getu msg 33 3 = Some st ->
  decode_ura_n n msg 6 s = ura_loop msg 36 n 0 st s.
Proof.
  intros H1 H2 H3. unfold decode_ura_n. rewrite H1. cbn [bind]. rewrite Z.eqb_refl. cbn [negb Nat.add]. rewrite H2. cbn [bind]. rewrite H3. reflexivity.
Qed.
Lemma decode_b2b_5 msg s : getu msg 0 6 = Some 5 -> decode_b2b msg s = decode_ura msg 6 s.
Proof. intros H. unfold decode_b2b. rewrite H. reflexivity. Qed.
Theorem b2b_ura tod res iodp st l rest s : NoDup (b_sat_n s) -> U 2 (b_iodssr s) -> U 4 iodp -> U 3 st -> ura_ok l ->
  exists s', decode_b2b (ura_msg tod res (b_iodssr s) iodp st l rest) s = Some s' /\
    (forall j a, nth_error (b_sat_n s) j = Some a ->
       zget a (b_ura s') = match entry l (70 * Z.to_nat st) j with Some c => Some c | None => zget a (b_ura s) end) /\
    (forall a, ~ In a (b_sat_n s) -> zget a (b_ura s') = zget a (b_ura s)) /\
    mask_part s' = mask_part s /\ orb_part s' = orb_part s /\ clk_part s' = clk_part s /\ b_cbias s' = b_cbias s.
Proof.
  intros N Us Ui Ut [L F]. unfold ura_msg.
  destruct (b2b_head 5 tod res ([4 # iodp; 3 # st] ++ flat_map (fun c => [3 # fst c; 3 # snd c]) l) rest s ltac:(lia) Us) as (A & G & H).
  match type of A with At ?M _ _ => set (M0 := M) in * end. rewrite enc_app in A. apply At_app in A as [A B].
  assert (0 <= st) as Hst by (unfold U in Ut; lia). apply (At_pos _ _ 36%nat) in B; [|reflexivity].
  clearbody M0.
  destruct (ura_loop_ok _ st Hst l 0 _ s N F B) as (s' & E & K1 & K2 & K3 & K). rewrite L in E.
  exists s'. split; [|split; [|split; [exact K2|exact K]]].
  - rewrite (decode_b2b_5 _ _ G). unfold decode_ura. rewrite (decode_ura_eq 70 M0 s st iodp H).
    + exact E.
    + eapply (getu_at _ _ _ 0%nat _ iodp _ A); [reflexivity|rng0|lia].
    + eapply (getu_at _ _ _ 4%nat _ st _ A); [reflexivity|rng0|lia].
  - intros j a Hj. specialize (K1 j a Hj). replace (Z.to_nat (st * 70) + 0)%nat with (70 * Z.to_nat st)%nat in K1 by lia. exact K1.
Qed.

(* ---------- code biases ---------- *)
Lemma known_sig_ok slot k sys p : slot_ok slot -> slot2prn slot = (sys, p) -> sig_ok slot k -> known_sig sys k = true.
Proof.
  intros Ho E H. unfold sig_ok in H. unfold slot2prn in E. unfold slot_ok in Ho.
  assert (X : sys = (if slot <=? 63 then BDS else if slot <=? 100 then GPS else if slot <=? 137 then GAL else GLO)).
  { replace (slot >=? 1) with true in E by lia. cbn [andb] in E.
    destruct (slot <=? 63); [congruence|]. destruct (slot <=? 100); [congruence|]. destruct (slot <=? 137); [congruence|].
    replace (slot <=? 174) with true in E by lia. congruence. }
  subst sys. unfold known_sig. apply existsb_exists. exists k. split; [|apply Z.eqb_refl].
  destruct (slot <=? 63); [exact H|]. destruct (slot <=? 100); [exact H|]. destruct (slot <=? 137); exact H.
Qed.
Lemma cb_sigs_ok msg sys : forall l i d, Forall (fun p => U 4 (fst p) /\ S_ 12 (snd p)) l -> Forall (fun p => known_sig sys (fst p) = true) l ->
  At msg i (enc (flat_map (fun p => [4 # fst p; 12 # snd p]) l)) ->
  exists d', cb_sigs msg i (length l) sys d = Some ((i + 16 * length l)%nat, d') /\
    forall k, zget k d' = match last_bias k l with Some x => Some x | None => zget k d end.
Proof.
  induction l as [|[j v] l IH]; intros i d F G A.
  - exists d. split; [cbn; do 2 f_equal; lia|auto].
  - inversion F as [|? ? [H1 H2] F']; subst. inversion G as [|? ? H3 G']; subst. cbn [fst snd] in *.
    cbn [flat_map] in A. rewrite enc_app in A. apply At_app in A as [A B]. cbn [fst snd] in A.
    cbn [length cb_sigs].
    erewrite (getu_at _ _ _ 0%nat _ j _ A); [|reflexivity|rng0|lia]. cbn [bind].
    erewrite (gets_at _ _ _ 4%nat _ v _ A); [|reflexivity|lia|rng0|lia]. cbn [bind]. rewrite H3.
    destruct (IH (i + 16)%nat (zset j (sval_bds v 12) d) F' G' B) as (d' & E & K).
    exists d'. split; [rewrite E; do 2 f_equal; lia|]. intros k. rewrite K. cbn [last_bias].
    destruct (last_bias k l); [reflexivity|]. destruct (Z.eqb_spec j k) as [<-|Nj]; [rewrite zget_zset_same, sval_code; reflexivity|].
    now rewrite zget_zset_other by assumption.
Qed.
Lemma set_b_cb_get c s : b_cbias (set_b_cb c s) = c /\ b_sat_n (set_b_cb c s) = b_sat_n s /\ mask_part (set_b_cb c s) = mask_part s /\
  orb_part (set_b_cb c s) = orb_part s /\ clk_part (set_b_cb c s) = clk_part s /\ b_ura (set_b_cb c s) = b_ura s.
Proof. destruct s. repeat split. Qed.
Definition in_mask (s : bst) (e : cent) : Prop := exists a, slot_sat (c_slot e) = Some a /\ In a (b_sat_n s).
Lemma cb_loop_ok msg : forall l i s, Forall cent_ok l -> Forall (fun e => Forall (fun p => sig_ok (c_slot e) (fst p)) (c_sigs e)) l ->
  Forall (in_mask s) l -> At msg i (enc (flat_map cfields l)) ->
  exists s', cb_loop msg i (length l) s = Some s' /\
    (forall a k, bias s' a k = match last_cb a l with Some e => last_bias k (c_sigs e) | None => bias s a k end) /\
    mask_part s' = mask_part s /\ orb_part s' = orb_part s /\ clk_part s' = clk_part s /\ b_ura s' = b_ura s.
Proof.
  induction l as [|e l IH]; intros i s F G M A; [exists s; repeat split; auto|].
  inversion F as [|? ? (He & Hn & Hs) F']; subst. inversion G as [|? ? Hg G']; subst. inversion M as [|? ? (a & Ea & Ia) M']; subst.
  cbn [flat_map] in A. rewrite enc_app in A. apply At_app in A as [A B]. unfold cfields in A at 1. rewrite enc_app in A. apply At_app in A as [A A'].
  cbn [length cb_loop]. pose proof (slot_sat_model _ He) as (sys & p & E1 & E2 & _).
  assert (U9 : U 9 (c_slot e)) by (unfold U, slot_ok in *; lia).
  assert (U4 : U 4 (Z.of_nat (length (c_sigs e)))) by (unfold U; lia).
  erewrite (getu_at _ _ _ 0%nat _ (c_slot e) _ A); [|reflexivity|rng0|lia]. cbn [bind].
  erewrite (getu_at _ _ _ 9%nat _ (Z.of_nat (length (c_sigs e))) _ A); [|reflexivity|rng0|lia]. cbn [bind]. cbv zeta. rewrite E1.
  rewrite Ea in E2. injection E2 as <-. rewrite Nat2Z.id.
  fold (inb a (b_sat_n s)). rewrite (proj2 (inb_in a (b_sat_n s)) Ia). cbn [negb].
  assert (Hk : Forall (fun q => known_sig sys (fst q) = true) (c_sigs e)).
  { eapply Forall_impl; [|exact Hg]. intros q Hq. eapply known_sig_ok; eassumption. }
  destruct (cb_sigs_ok msg sys (c_sigs e) (i + 13)%nat [] Hs Hk A') as (d & Ed & Kd). rewrite Ed. cbn [bind].
  destruct (set_b_cb_get (zset a d (b_cbias s)) s) as (Q0 & Q1 & Q2 & Q3 & Q4 & Q5).
  destruct (IH (i + 13 + 16 * length (c_sigs e))%nat (set_b_cb (zset a d (b_cbias s)) s)) as (s' & E & K & K1 & K2 & K3 & K4); try assumption.
  - eapply Forall_impl; [|exact M']. intros e' (b & X & Y). exists b. rewrite Q1. auto.
  - eapply At_pos; [exact B|]. rewrite enc_length. unfold cfields, fwidth. rewrite map_app. cbn [map fst app list_sum fold_right].
    assert (X : list_sum (map fst (flat_map (fun q : Z * Z => [(4%nat, fst q); (12%nat, snd q)]) (c_sigs e))) = (16 * length (c_sigs e))%nat).
    { clear. induction (c_sigs e) as [|q l IH]; [reflexivity|]. cbn [flat_map map app fst list_sum fold_right length] in *. unfold list_sum in *. lia. }
    unfold list_sum in *. cbn [fold_right]. eapply eq_trans; [apply (f_equal (fun t => i + (9 + (4 + t)))%nat); exact X|lia].
  - exists s'. rewrite Q2 in *. rewrite Q3 in *. rewrite Q4 in *. rewrite Q5 in *. split; [exact E|]. split; [|auto 10].
    intros b k. rewrite K. cbn [last_cb]. destruct (last_cb b l); [reflexivity|]. rewrite Ea. unfold bias at 1. rewrite Q0.
    destruct (Z.eqb_spec a b) as [<-|Nb]; [rewrite zget_zset_same, Kd; now destruct (last_bias k (c_sigs e))|].
    now rewrite zget_zset_other by assumption.
Qed.
Theorem b2b_bias tod res l rest s : U 2 (b_iodssr s) -> (length l <= 31)%nat -> Forall cent_ok l ->
  Forall (fun e => Forall (fun p => sig_ok (c_slot e) (fst p)) (c_sigs e)) l -> Forall (in_mask s) l ->
  exists s', decode_b2b (cb_msg tod res (b_iodssr s) l rest) s = Some s' /\
    (forall a k, bias s' a k = match last_cb a l with Some e => last_bias k (c_sigs e) | None => bias s a k end) /\
    mask_part s' = mask_part s /\ orb_part s' = orb_part s /\ clk_part s' = clk_part s /\ b_ura s' = b_ura s.
Proof.
  intros Us Hl F G M. unfold cb_msg.
  destruct (b2b_head 3 tod res ([5 # Z.of_nat (length l)] ++ flat_map cfields l) rest s ltac:(lia) Us) as (A & Gm & H).
  match type of A with At ?M _ _ => set (M0 := M) in * end. rewrite enc_app in A. apply At_app in A as [A B].
  destruct (cb_loop_ok _ l _ s F G M B) as (s' & E & K).
  exists s'. split; [|exact K].
  clear B K. unfold decode_b2b. rewrite Gm. cbn [bind Z.eqb Pos.eqb]. unfold decode_cbias. rewrite H. cbn [bind]. rewrite Z.eqb_refl. cbn [negb Nat.add].
  assert (U5 : U 5 (Z.of_nat (length l))) by (unfold U; lia). rp 0%nat. rewrite Nat2Z.id. exact E.
Qed.

(* ---------- what every message keeps ---------- *)
Definition kept (s s' : bst) : Prop := mask_part s' = mask_part s /\ (cdom s -> cdom s').
Lemma kept_refl s : kept s s. Proof. split; auto. Qed.
Lemma kept_trans s t u : kept s t -> kept t u -> kept s u.
Proof. intros [A A'] [B B']. split; [congruence|auto]. Qed.
Ltac inv H := repeat match type of H with
  | bind ?m _ = Some _ => let E := fresh "E" in destruct m eqn:E; [cbn [bind] in H|discriminate H] end.
Lemma clk_sat_kept msg i a s r : clk_sat msg i a s = Some r -> kept s (snd r).
Proof.
  unfold clk_sat. intros H. inv H. injection H as <-. cbn [snd].
  match goal with |- kept s (set_b_clk ?x ?y ?z ?w s) => destruct (set_b_clk_get x y z w s) as (Q1 & Q2 & _ & _ & _ & Q6 & _) end.
  split; [assumption|]. intros D b. rewrite Q1, Q2. destruct (Z.eq_dec a b) as [<-|N]; [rewrite !zget_zset_same; congruence|].
  rewrite !zget_zset_other by assumption. apply D.
Qed.
Lemma orb_sat_kept msg i s r : orb_sat msg i s = Some r -> kept s (snd r).
Proof.
  unfold orb_sat. intros H. inv H. destruct (slot2prn _) as [sys p]. destruct (gnss_eqb sys NONE); [injection H as <-; apply kept_refl|].
  destruct (negb _); injection H as <-; [apply kept_refl|]. cbn [snd]. destruct s. split; [reflexivity|]. intros D b. apply D.
Qed.
Lemma orb_loop_kept msg : forall n i s r, orb_loop msg i n s = Some r -> kept s (snd r).
Proof.
  induction n as [|n IH]; intros i s r H; cbn [orb_loop] in H; [injection H as <-; apply kept_refl|]. inv H. destruct p as [i' s'].
  eapply kept_trans; [exact (orb_sat_kept _ _ _ _ E)|]. exact (IH _ _ _ H).
Qed.
Lemma clk_loop_kept msg st : forall n i k s r, clk_loop msg i n k st s = Some r -> kept s r.
Proof.
  induction n as [|n IH]; intros i k s r H; cbn [clk_loop] in H; [injection H as <-; apply kept_refl|].
  destruct (nth_error _ _); [|exact (IH _ _ _ _ H)]. inv H. destruct p as [i' s'].
  eapply kept_trans; [exact (clk_sat_kept _ _ _ _ _ E)|]. exact (IH _ _ _ _ H).
Qed.
Lemma comb_clk_kept msg sl : forall n i k s r, comb_clk msg i n k sl s = Some r -> kept s (snd r).
Proof.
  induction n as [|n IH]; intros i k s r H; cbn [comb_clk] in H; [injection H as <-; apply kept_refl|].
  inv H. destruct p as [i' s']. eapply kept_trans; [exact (clk_sat_kept _ _ _ _ _ E0)|]. exact (IH _ _ _ _ H).
Qed.
Lemma ura_loop_kept msg st : forall n i k s r, ura_loop msg i n k st s = Some r -> kept s r.
Proof.
  induction n as [|n IH]; intros i k s r H; cbn [ura_loop] in H; [injection H as <-; apply kept_refl|]. inv H.
  eapply kept_trans; [|exact (IH _ _ _ _ H)]. destruct (nth_error _ _); [|apply kept_refl]. destruct s. split; [reflexivity|]. intros D b. apply D.
Qed.
Lemma cb_loop_kept msg : forall n i s r, cb_loop msg i n s = Some r -> kept s r.
Proof.
  induction n as [|n IH]; intros i s r H; cbn [cb_loop] in H; [injection H as <-; apply kept_refl|]. inv H.
  destruct (slot2prn _) as [sys p]. destruct (negb _); [exact (IH _ _ _ H)|]. inv H. destruct p0 as [i' d].
  eapply kept_trans; [|exact (IH _ _ _ H)]. destruct s. split; [reflexivity|]. intros D b. apply D.
Qed.
Ltac kdone H := injection H as <-; apply kept_refl.
Lemma decode_orb_kept msg i s r : decode_orb msg i s = Some r -> kept s r.
Proof. unfold decode_orb. generalize 6%nat as n. intros n H. inv H. destruct (negb _); [kdone H|]. inv H. injection H as <-. eapply orb_loop_kept; eassumption. Qed.
Lemma decode_cbias_kept msg i s r : decode_cbias msg i s = Some r -> kept s r.
Proof. unfold decode_cbias. intros H. inv H. destruct (negb _); [kdone H|]. inv H. eapply cb_loop_kept; eassumption. Qed.
Lemma decode_clk_kept msg i s r : decode_clk msg i s = Some r -> kept s r.
Proof.
  unfold decode_clk. generalize 32%nat as m, 27%nat as m'. generalize 23%nat as n. intros n m m' H. inv H. destruct (negb _); [kdone H|]. inv H.
  destruct (negb _); [kdone H|]. eapply clk_loop_kept; eassumption.
Qed.
Lemma decode_ura_kept n msg i s r : decode_ura_n n msg i s = Some r -> kept s r.
Proof. unfold decode_ura_n. intros H. inv H. destruct (negb _); [kdone H|]. inv H. eapply ura_loop_kept; eassumption. Qed.
Lemma decode_comb1_kept msg i s r : decode_comb1 msg i s = Some r -> kept s r.
Proof.
  unfold decode_comb1. intros H. inv H. destruct p as [i' t].
  assert (K : kept s t). { destruct (z >? 0); [|injection E1 as <- <-; apply kept_refl]. inv E1. exact (comb_clk_kept _ _ _ _ _ _ _ E1). }
  destruct (z0 >? 0); [|injection H as <-; exact K]. inv H. injection H as <-. eapply kept_trans; [exact K|]. eapply orb_loop_kept; eassumption.
Qed.
Lemma decode_comb2_kept msg i s r : decode_comb2 msg i s = Some r -> kept s r.
Proof.
  unfold decode_comb2. intros H. inv H. destruct (z >? 0); [discriminate|]. destruct (z0 >? 0); [|kdone H]. inv H. injection H as <-. eapply orb_loop_kept; eassumption.
Qed.
Theorem b2b_kept msg s s' : decode_b2b msg s = Some s' -> getu msg 0 6 <> Some 1 -> kept s s'.
Proof.
  unfold decode_b2b. intros H N. inv H. rename z into mt. destruct (Z.eqb_spec mt 1) as [->|_]; [congruence|]. clear E N.
  destruct (mt =? 2); [|destruct (mt =? 3); [|destruct (mt =? 4); [|destruct (mt =? 5); [|destruct (mt =? 6); [|destruct (mt =? 7)]]]]].
  - eapply decode_orb_kept, H.
  - eapply decode_cbias_kept, H.
  - eapply decode_clk_kept, H.
  - eapply decode_ura_kept, H.
  - eapply decode_comb1_kept, H.
  - eapply decode_comb2_kept, H.
  - kdone H.
Qed.
Lemma mask_sat_pos sys m n a : sys = BDS \/ sys = GPS \/ sys = GAL \/ sys = GLO -> In a (map (prn2sat sys) (fst (decode_mask m n 1))) -> 0 < a.
Proof.
  intros S H. apply in_map_iff in H as (k & <- & Hk).
  assert (1 <= k).
  { unfold decode_mask in Hk. clear S.
    assert (G : forall l acc, (forall x, In x (fst acc) -> 1 <= x) -> forall x, In x (fst (fold_left (mask_step m n 1) l acc)) -> 1 <= x).
    { induction l as [|y l IH]; intros acc Ha x Hx; cbn [fold_left] in Hx; [auto|]. eapply IH; [|exact Hx]. intros z Hz.
      unfold mask_step in Hz. destruct acc as [v q]. destruct (Z.testbit _ _); [|auto]. cbn [fst] in Hz. apply in_app_or in Hz as [Hz|[<-|[]]]; [auto|lia]. }
    eapply G; [|exact Hk]. cbn. tauto. }
  assert (X : 0 <= BDSMIN /\ 0 <= GALMIN /\ 0 <= GLOMIN) by (vm_compute; intuition discriminate).
  destruct S as [-> | [-> | [-> | ->]]]; cbn [prn2sat]; lia.
Qed.
Lemma some_inj {A} (x y : A) : Some x = Some y -> x = y.
Proof. congruence. Qed.
Theorem b2b_valid msg s s' : valid s -> decode_b2b msg s = Some s' -> valid s'.
Proof.
  intros (V1 & V2 & V3) H. pose proof H as H0. unfold decode_b2b in H. inv H. destruct (Z.eqb_spec z 1) as [->|N].
  - unfold decode_mask1 in H. inv H. cbv beta zeta in H. destruct (negb _) eqn:Eb; apply some_inj in H; subst s'.
    + split; [|split]; cbn [b_sat_n b_iodc_c b_dclk b_iodp b_iodp_p]; [|cbn [zget dget]; congruence|reflexivity].
      assert (P : forall sys m n, sys = BDS \/ sys = GPS \/ sys = GAL \/ sys = GLO -> Forall (fun a => 0 < a) (map (prn2sat sys) (fst (decode_mask m n 1)))).
      { clear. intros sys m n S. apply Forall_forall. intros x Hx. eapply mask_sat_pos; eassumption. }
      clear - P. apply Forall_app; split; [apply P; tauto|]. apply Forall_app; split; [apply P; tauto|]. apply Forall_app; split; apply P; tauto.
    + clear H0 E E0 E1 E2 E3 E4 E5. apply negb_false_iff, Z.eqb_eq in Eb.
      destruct s; cbn [set_b_ssr BdsModel.b_sat_n BdsModel.b_iodc_c BdsModel.b_dclk BdsModel.b_iodp BdsModel.b_iodp_p] in *. split; [|split]; auto.
  - destruct (b2b_kept _ _ _ H0) as [K1 K2]; [congruence|]. unfold mask_part in K1. injection K1 as K3 K4 K5 K6.
    split; [|split]; [now rewrite K6|apply K2; exact V2|congruence].
Qed.
