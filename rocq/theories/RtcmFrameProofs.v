(** Frames written by the encoder are accepted; damaged ones are rejected; message numbers. *)
From Verif Require Import SatModel SatProofs RtcmFrame RtcmFrameSpec RtcmCrc Base BaseFacts.
From Coq Require Import ZifyBool ZifyNat.
Open Scope Z_scope.

Lemma putu_eq l off n v l' : putu l off n v = Some l' ->
  (off + n <= length l)%nat /\ 0 <= v < 2 ^ Z.of_nat n /\ l' = splice l off (bitsof n v).
Proof.
  unfold putu. destruct ((off + n <=? length l)%nat && (0 <=? v) && (v <? 2 ^ Z.of_nat n)) eqn:E; [|discriminate].
  intros H. injection H as <-. split; [lia|]. split; [lia|reflexivity].
Qed.
Lemma putu_ok l off n v : (off + n <= length l)%nat -> 0 <= v < 2 ^ Z.of_nat n ->
  putu l off n v = Some (splice l off (bitsof n v)).
Proof.
  intros H1 H2. unfold putu.
  replace ((off + n <=? length l)%nat && (0 <=? v) && (v <? 2 ^ Z.of_nat n)) with true by lia. reflexivity.
Qed.
Lemma splice_len l off n v : (off + n <= length l)%nat -> length (splice l off (bitsof n v)) = length l.
Proof. intros H. apply splice_length. now rewrite bitsof_length. Qed.

Lemma slice_out {A} (d : A) (l : list A) off w i n : (off + length w <= length l)%nat -> (i + n <= length l)%nat ->
  (i + n <= off \/ off + length w <= i)%nat -> slice (splice l off w) i n = slice l i n.
Proof.
  intros H1 H2 H3. apply (nth_list_eq d).
  - rewrite !slice_length; rewrite ?splice_length; auto; lia.
  - intros j. destruct (Nat.lt_ge_cases j n) as [Hj|Hj].
    + rewrite !nth_slice by exact Hj. rewrite nth_splice by exact H1.
      replace ((off <=? i + j)%nat && (i + j <? off + length w)%nat) with false by lia. reflexivity.
    + rewrite !nth_overflow; [reflexivity| |]; rewrite slice_length; rewrite ?splice_length; auto; lia.
Qed.
Lemma slice_at_exact l off n v : (off + n <= length l)%nat ->
  slice (splice l off (bitsof n v)) off n = bitsof n v.
Proof.
  intros H. rewrite <- (bitsof_length n v) at 2. apply slice_at, splice_at. now rewrite bitsof_length.
Qed.
Lemma slice_app {A} (l : list A) i n m : slice l i (n + m) = slice l i n ++ slice l (i + n) m.
Proof.
  unfold slice. rewrite <- skipn_skipn_add. generalize (skipn i l). clear. intros l.
  revert l. induction n as [|n IH]; intros l; [reflexivity|]. destruct l as [|a l].
  - cbn. now rewrite firstn_nil.
  - cbn. f_equal. apply IH.
Qed.
Lemma getu_out l off w i n : (off + length w <= length l)%nat -> (i + n <= length l)%nat ->
  (i + n <= off \/ off + length w <= i)%nat -> getu (splice l off w) i n = getu l i n.
Proof.
  intros H1 H2 H3. unfold getu. rewrite splice_length by exact H1. now rewrite (slice_out false) by assumption.
Qed.
Lemma getu_in l off n v : (off + n <= length l)%nat -> 0 <= v < 2 ^ Z.of_nat n ->
  getu (splice l off (bitsof n v)) off n = Some v.
Proof. intros H1 H2. apply getu_bits; [|exact H2]. apply splice_at. now rewrite bitsof_length. Qed.

Lemma land10 n : (n < Z.to_nat 1024)%nat -> Z.land (Z.of_nat n) 0x3ff = Z.of_nat n.
Proof. intros H. change 0x3ff with (Z.ones 10). rewrite Z.land_ones by lia. apply Z.mod_small. cbn. lia. Qed.
Lemma land10_bound z : 0 <= Z.land z 0x3ff < 1024.
Proof. change 0x3ff with (Z.ones 10). rewrite Z.land_ones by lia. apply Z.mod_pos_bound. reflexivity. Qed.

Lemma bitsof_split (c : Z) : bitsof 16 (Z.shiftr c 8) ++ bitsof 8 (Z.land c 0xff) = bitsof 24 c.
Proof.
  assert (A : forall n, bitsof n (Z.shiftr c 8) ++ bitsof 8 c = bitsof (n + 8) c).
  { induction n as [|n IH]; [reflexivity|]. change (bitsof (S n) (Z.shiftr c 8)) with (Z.testbit (Z.shiftr c 8) (Z.of_nat n) :: bitsof n (Z.shiftr c 8)).
    change (bitsof (S n + 8) c) with (Z.testbit c (Z.of_nat (n + 8)) :: bitsof (n + 8) c).
    rewrite <- app_comm_cons, IH. f_equal. rewrite Z.shiftr_spec by lia. f_equal. lia. }
  assert (B : bitsof 8 (Z.land c 0xff) = bitsof 8 c).
  { change 0xff with (Z.ones 8). rewrite Z.land_ones by lia. apply (bitsof_mod 8). }
  rewrite B. apply (A 16%nat).
Qed.

Lemma frame_ok msg k len maxlen : (6 <= len < Z.to_nat 1024)%nat -> (8 * (k + len + 6) <= length msg)%nat ->
  (maxlen = 0 \/ k + len < maxlen)%nat ->
  exists m cs, frame msg k len maxlen = Some (m, Some cs) /\
    length m = length msg /\
    sync m k = Some true /\
    (forall mon, checksum mon m k maxlen = Some (true, Some len)) /\
    (forall j, (j < 8 * k \/ 8 * (k + 3) <= j < 8 * (k + 3 + len) \/ 8 * (k + len + 6) <= j)%nat ->
       nth j m false = nth j msg false).
Proof.
  intros Hl Hm Hx. unfold frame, set_sync.
  rewrite putu_ok by (cbn; lia). cbn [bind]. set (m1 := splice msg (8 * k) (bitsof 8 0xd3)).
  assert (L1 : length m1 = length msg) by (apply splice_len; lia).
  unfold set_len. rewrite land10 by lia.
  rewrite putu_ok by (rewrite ?L1; cbn; lia). cbn [bind].
  set (m2 := splice m1 (8 * (k + 1)) (bitsof 16 (Z.of_nat len))).
  assert (L2 : length m2 = length msg) by (unfold m2; rewrite splice_len; [exact L1|rewrite L1; lia]).
  unfold set_checksum. replace (len <? 6)%nat with false by lia.
  replace ((0 <? maxlen)%nat && (maxlen <=? k + len)%nat) with false by lia.
  set (F := slice m2 (8 * k) (8 * (len + 3))). set (cs := crc24 F).
  pose proof (crc_reg F) as Rc. fold cs in Rc.
  assert (Hhi : 0 <= Z.shiftr cs 8 < 2 ^ Z.of_nat 16).
  { unfold reg in Rc. rewrite Z.shiftr_div_pow2 by lia. split; [apply Z.div_pos; [apply Rc|reflexivity]|].
    apply Z.div_lt_upper_bound; [reflexivity|]. apply Rc. }
  assert (Hlo : 0 <= Z.land cs 0xff < 2 ^ Z.of_nat 8).
  { change 0xff with (Z.ones 8). rewrite Z.land_ones by lia. apply Z.mod_pos_bound. reflexivity. }
  rewrite putu_ok by (rewrite ?L2; auto; lia). cbn [bind].
  set (m3 := splice m2 (8 * (k + len + 3)) (bitsof 16 (Z.shiftr cs 8))).
  assert (L3 : length m3 = length msg) by (unfold m3; rewrite splice_len; [exact L2|rewrite L2; lia]).
  rewrite putu_ok by (rewrite ?L3; auto; lia). cbn [bind].
  set (m4 := splice m3 (8 * (k + len + 5)) (bitsof 8 (Z.land cs 0xff))).
  assert (L4 : length m4 = length msg) by (unfold m4; rewrite splice_len; [exact L3|rewrite L3; lia]).
  exists m4, cs. split; [reflexivity|]. split; [exact L4|].
  assert (G : forall i n, (i + n <= 8 * (k + len + 3))%nat -> getu m4 i n = getu m2 i n).
  { intros i n Hi. unfold m4, m3. rewrite !getu_out; auto; rewrite ?splice_len, ?bitsof_length, ?L3, ?L2; try lia. }
  split.
  { unfold sync. rewrite G by lia. unfold m2. rewrite getu_out; rewrite ?bitsof_length, ?L1; try lia.
    unfold m1. rewrite getu_in by (cbn; lia). reflexivity. }
  split.
  { intros mon. unfold checksum. rewrite G by lia. unfold m2 at 1.
    rewrite getu_in by (rewrite ?L1; cbn; lia). cbn [bind]. rewrite land10, Nat2Z.id by lia.
    replace (len <? 6)%nat with false by lia.
    replace ((0 <? maxlen)%nat && (maxlen <=? k + len)%nat) with false by lia.
    assert (E : crc24 (slice m4 (8 * k) (8 * (len + 6))) = 0).
    { replace (8 * (len + 6))%nat with (8 * (len + 3) + (16 + 8))%nat by lia.
      rewrite !slice_app.
      assert (EF : slice m4 (8 * k) (8 * (len + 3)) = F).
      { unfold m4. rewrite (slice_out false); rewrite ?bitsof_length, ?L3; try lia.
        unfold m3. rewrite (slice_out false); rewrite ?bitsof_length, ?L2; try lia. reflexivity. }
      assert (E1 : slice m4 (8 * k + 8 * (len + 3)) 16 = bitsof 16 (Z.shiftr cs 8)).
      { replace (8 * k + 8 * (len + 3))%nat with (8 * (k + len + 3))%nat by lia.
        unfold m4. rewrite (slice_out false); rewrite ?bitsof_length, ?L3; try lia.
        apply slice_at_exact. rewrite L2. lia. }
      assert (E2 : slice m4 (8 * k + 8 * (len + 3) + 16) 8 = bitsof 8 (Z.land cs 0xff)).
      { replace (8 * k + 8 * (len + 3) + 16)%nat with (8 * (k + len + 5))%nat by lia.
        apply slice_at_exact. rewrite L3. lia. }
      rewrite EF, E1, E2, bitsof_split. apply crc_app_self; [apply bitsof_length|].
      rewrite bval_bitsof; [reflexivity|]. exact Rc. }
    rewrite E. cbn [Z.eqb negb]. rewrite andb_false_r. reflexivity. }
  intros j Hj. unfold m4. rewrite nth_splice by (rewrite bitsof_length, L3; lia). rewrite bitsof_length.
  replace ((8 * (k + len + 5) <=? j)%nat && (j <? 8 * (k + len + 5) + 8)%nat) with false by lia.
  unfold m3. rewrite nth_splice by (rewrite bitsof_length, L2; lia). rewrite bitsof_length.
  replace ((8 * (k + len + 3) <=? j)%nat && (j <? 8 * (k + len + 3) + 16)%nat) with false by lia.
  unfold m2. rewrite nth_splice by (rewrite bitsof_length, L1; lia). rewrite bitsof_length.
  replace ((8 * (k + 1) <=? j)%nat && (j <? 8 * (k + 1) + 16)%nat) with false by lia.
  unfold m1. rewrite nth_splice by (rewrite bitsof_length; lia). rewrite bitsof_length.
  replace ((8 * k <=? j)%nat && (j <? 8 * k + 8)%nat) with false by lia. reflexivity.
Qed.

(** shorter bodies: set_checksum writes nothing and the frame is refused *)
Lemma frame_short msg k len maxlen : (len < 6)%nat -> (8 * (k + 3) <= length msg)%nat ->
  exists m, frame msg k len maxlen = Some (m, None) /\
    (forall mon mx, checksum mon m k mx = Some (false, None)).
Proof.
  intros Hl Hm. unfold frame, set_sync, set_len. rewrite putu_ok by (cbn; lia). cbn [bind].
  assert (Hc : (len < Z.to_nat 1024)%nat) by lia.
  rewrite land10 by exact Hc. rewrite putu_ok by (rewrite ?splice_len by lia; cbn; lia). cbn [bind].
  unfold set_checksum. replace (len <? 6)%nat with true by lia.
  eexists. split; [reflexivity|]. intros mon mx. unfold checksum.
  rewrite getu_in by (rewrite ?splice_len by lia; cbn; lia). cbn [bind]. rewrite land10, Nat2Z.id by exact Hc.
  replace (len <? 6)%nat with true by lia. reflexivity.
Qed.

(** accepted frame = sync-independent divisibility *)
Lemma checksum_divisible mon msg k maxlen len : (8 * (k + len + 6) <= length msg)%nat ->
  (checksum mon msg k maxlen = Some (true, Some len) <->
   (6 <= len)%nat /\ (maxlen = 0 \/ k + len < maxlen)%nat /\
   bval (slice msg (8 * k + 14) 10) = Z.of_nat len /\
   exists q, bval (slice msg (8 * k) (8 * (len + 6))) = gmul q gen24q).
Proof.
  intros Hm. unfold checksum.
  destruct (getu msg (8 * (k + 1)) 16) as [h|] eqn:Eh.
  2:{ apply getu_none in Eh. lia. }
  cbn [bind].
  assert (Hh : Z.land h 0x3ff = bval (slice msg (8 * k + 14) 10)).
  { unfold getu in Eh. destruct (8 * (k + 1) + 16 <=? length msg)%nat eqn:El; [|discriminate].
    pose proof (f_equal (fun o => match o with Some x => x | None => h end) Eh) as Eh'. cbv beta iota in Eh'. rewrite <- Eh'. change 16%nat with (6 + 10)%nat. rewrite slice_app.
    replace (8 * (k + 1) + 6)%nat with (8 * k + 14)%nat by lia.
    rewrite bval_app, slice_length by lia. change 0x3ff with (Z.ones 10). rewrite Z.land_ones by lia.
    rewrite Z.add_comm, Z.mod_add by (cbn; lia). apply Z.mod_small.
    pose proof (bval_bound (slice msg (8 * k + 14) 10)) as B. rewrite slice_length in B by lia. exact B. }
  rewrite Hh. set (n := bval (slice msg (8 * k + 14) 10)).
  assert (Hn : 0 <= n).
  { apply bval_bound. }
  assert (Dz : forall l, (24 <= length l)%nat -> ((crc24 l =? 0) = true <-> exists q, bval l = gmul q gen24q)).
  { intros l Hl. rewrite Z.eqb_eq. now apply crc_zero_iff. }
  split.
  - destruct (Z.to_nat n <? 6)%nat eqn:E1; [discriminate|].
    destruct ((0 <? maxlen)%nat && (maxlen <=? k + Z.to_nat n)%nat) eqn:E2; [discriminate|].
    destruct (if mon && negb (crc24 (slice msg (8 * k) (8 * (Z.to_nat n + 6))) =? 0) then getu msg (8 * (k + 3)) 16 else Some 0);
      [|discriminate]. cbn [bind]. intros H. injection H as H1 H2. subst len.
    rewrite Z2Nat.id by exact Hn. split; [lia|]. split; [lia|]. split; [reflexivity|].
    apply Dz; [|exact H1]. rewrite slice_length by lia. lia.
  - intros (H1 & H2 & H3 & H4). rewrite H3, Nat2Z.id.
    replace (len <? 6)%nat with false by lia.
    replace ((0 <? maxlen)%nat && (maxlen <=? k + len)%nat) with false by lia.
    apply Dz in H4; [|rewrite slice_length by lia; lia]. rewrite H4. cbn [negb]. rewrite andb_false_r. reflexivity.
Qed.

Lemma damaged mon msg msg' k maxlen len :
  (8 * (k + len + 6) <= length msg)%nat -> length msg' = length msg ->
  checksum mon msg k maxlen = Some (true, Some len) ->
  slice msg' (8 * k + 14) 10 = slice msg (8 * k + 14) 10 ->
  must_detect (diff (slice msg (8 * k) (8 * (len + 6))) (slice msg' (8 * k) (8 * (len + 6)))) ->
  checksum mon msg' k maxlen = Some (false, Some len).
Proof.
  intros Hm Hl Hc Hf Hd.
  pose proof Hc as Hc'. apply checksum_divisible in Hc' as (H1 & H2 & H3 & H4); [|exact Hm].
  assert (Hlen : (len < Z.to_nat 1024)%nat).
  { pose proof (bval_bound (slice msg (8 * k + 14) 10)) as B. rewrite slice_length in B by lia. change (2 ^ Z.of_nat 10) with 1024 in B. lia. }
  apply crc_zero_iff in H4; [|rewrite slice_length by lia; lia].
  assert (N : crc24 (slice msg' (8 * k) (8 * (len + 6))) <> 0).
  { eapply detect; [| | exact Hd | exact H4]; rewrite !slice_length by lia; lia. }
  unfold checksum.
  destruct (getu_some msg' (8 * (k + 1)) 16 ltac:(lia)) as [h Eh]. rewrite Eh. cbn [bind].
  assert (Hh : Z.land h 0x3ff = Z.of_nat len).
  { rewrite <- H3, <- Hf. unfold getu in Eh. destruct (8 * (k + 1) + 16 <=? length msg')%nat eqn:El; [|discriminate].
    pose proof (f_equal (fun o => match o with Some x => x | None => h end) Eh) as Eh'. cbv beta iota in Eh'. rewrite <- Eh'. change 16%nat with (6 + 10)%nat. rewrite slice_app.
    replace (8 * (k + 1) + 6)%nat with (8 * k + 14)%nat by lia.
    rewrite bval_app, slice_length by lia. change 0x3ff with (Z.ones 10). rewrite Z.land_ones by lia.
    rewrite Z.add_comm, Z.mod_add by (cbn; lia). apply Z.mod_small.
    pose proof (bval_bound (slice msg' (8 * k + 14) 10)) as B. rewrite slice_length in B by lia. exact B. }
  rewrite Hh, Nat2Z.id. replace (len <? 6)%nat with false by lia.
  replace ((0 <? maxlen)%nat && (maxlen <=? k + len)%nat) with false by lia.
  replace (crc24 (slice msg' (8 * k) (8 * (len + 6))) =? 0) with false by lia. cbn [negb].
  destruct (getu_some msg' (8 * (k + 3)) 16 ltac:(lia)) as [v Ev]. rewrite Ev.
  destruct mon; reflexivity.
Qed.

(** two frames that differ in one bit of the length field, both accepted: the shorter one is a
    prefix of the longer one's data *)
Definition twin : bits :=
  let short := bitsof 8 0xd3 ++ bitsof 16 6 ++ bitsof 48 0x010203040506 in
  let long := bitsof 8 0xd3 ++ bitsof 16 14 ++ bitsof 48 0x010203040506 ++ bitsof 24 (crc24 short) ++ bitsof 40 0 in
  long ++ bitsof 24 (crc24 long).
Lemma twin_ok : checksum true twin 0 0 = Some (true, Some 14%nat) /\
  weight (diff twin (splice twin 20 [false])) = 1%nat /\
  checksum true (splice twin 20 [false]) 0 0 = Some (true, Some 6%nat).
Proof. vm_compute. repeat split. Qed.

(** a frame cut off at the end of the buffer can be accepted *)
Definition cut : bits := let l := bitsof 8 0xd3 ++ bitsof 16 20 ++ bitsof 48 0x010203040506 in l ++ bitsof 24 (crc24 l).
Lemma cut_ok : checksum true cut 0 0 = Some (true, Some 20%nat) /\ (length cut < 8 * (20 + 6))%nat.
Proof. vm_compute. split; [reflexivity|lia]. Qed.

(* ---------- message numbers ---------- *)
Definition numbers : list Z := map Z.of_nat (seq 0 (Z.to_nat 4096)).
Lemma numbers_in mt : 0 <= mt < 4096 -> In mt numbers.
Proof.
  intros H. unfold numbers. apply in_map_iff. exists (Z.to_nat mt). split; [lia|]. apply in_seq. lia.
Qed.
Lemma gnss_dec (a b : gnss) : {a = b} + {a <> b}.
Proof. decide equality. Qed.

Lemma msmtype_iff mt s n : s <> NONE -> (msmtype mt = (s, n) <-> msm_number mt s n).
Proof.
  intros Hs. unfold msmtype, msm_t, msm_number. cbn [find fst snd].
  repeat match goal with |- context [if ?b then _ else _] => destruct b eqn:? end; cbn [fst snd];
  (split;
   [ intros H; injection H as <- <-; try congruence
   | intros (c & Hc & He & Hn & ->);
     assert (c = 0 \/ c = 1 \/ c = 2 \/ c = 3 \/ c = 4 \/ c = 5) as D by lia;
     destruct D as [-> | [-> | [-> | [-> | [-> | ->]]]]]; unfold msm_sys in He; subst s; try lia; f_equal; lia ]).
  - exists 0. split; [lia|]. split; [reflexivity|]. lia.
  - exists 1. split; [lia|]. split; [reflexivity|]. lia.
  - exists 2. split; [lia|]. split; [reflexivity|]. lia.
  - exists 3. split; [lia|]. split; [reflexivity|]. lia.
  - exists 4. split; [lia|]. split; [reflexivity|]. lia.
  - exists 5. split; [lia|]. split; [reflexivity|]. lia.
Qed.
Lemma is_msm_iff mt : is_msmtype mt = true <-> exists s n, s <> NONE /\ msm_number mt s n.
Proof.
  unfold is_msmtype, msm_t, msm_number. cbn [existsb fst snd]. split.
  - intros H.
    assert (D : exists c, 0 <= c <= 5 /\ 1071 + 10 * c <= mt <= 1071 + 10 * c + 6).
    { repeat (apply orb_prop in H as [H|H]); try discriminate;
        [exists 0|exists 1|exists 2|exists 3|exists 4|exists 5]; lia. }
    destruct D as (c & Hc & Hm). exists (msm_sys c), (mt - (1071 + 10 * c) + 1). split.
    + assert (c = 0 \/ c = 1 \/ c = 2 \/ c = 3 \/ c = 4 \/ c = 5) as D by lia.
      destruct D as [-> | [-> | [-> | [-> | [-> | ->]]]]]; discriminate.
    + exists c. repeat split; lia.
  - intros (s & n & Hs & c & Hc & He & Hn & ->).
    assert (c = 0 \/ c = 1 \/ c = 2 \/ c = 3 \/ c = 4 \/ c = 5) as D by lia.
    destruct D as [-> | [-> | [-> | [-> | [-> | ->]]]]]; lia.
Qed.

Definition is_kmsm (k : kind) : bool := match k with KMsm => true | _ => false end.
Lemma dispatch_msm_all : forallb (fun mt => Bool.eqb (is_kmsm (dispatch mt)) (is_msmtype mt)) numbers = true.
Proof. vm_compute. reflexivity. Qed.
Lemma dispatch_msm mt : 0 <= mt < 4096 -> (dispatch mt = KMsm <-> is_msmtype mt = true).
Proof.
  intros H. pose proof (proj1 (forallb_forall _ _) dispatch_msm_all mt (numbers_in mt H)) as E. cbv beta in E.
  apply eqb_prop in E. rewrite <- E. destruct (dispatch mt); cbn; split; congruence.
Qed.

(** the standard state space numbers *)
Definition std_ssr : list (Z * (gnss * sct)) :=
  flat_map (fun s => match ssr_base s with
    | Some b => flat_map (fun c => match ssr_order c with Some o => [(b + o, (s, c))] | None => [] end)
                  [SORB; SCLK; SCB; SOC; SURA; SHCLK]
    | None => [] end) [GPS; GLO; GAL; QZS; SBS; BDS].
Lemma ssr_number_in mt s c : ssr_number mt s c -> In (mt, (s, c)) std_ssr.
Proof.
  intros (b & o & Hb & Ho & ->). destruct s; try discriminate Hb; injection Hb as <-;
    destruct c; try discriminate Ho; injection Ho as <-; vm_compute; tauto.
Qed.
Definition std_ok (e : Z * (gnss * sct)) : bool :=
  let '(mt, (s, c)) := e in
  match dispatch mt with KSsr c' => sct_eqb c c' | _ => false end &&
  match get_ssr_sys None mt with Some s' => gnss_eqb s s' | None => false end &&
  (gnss_eqb (fst (ssrtype mt)) s && match ssr_order c with Some o => snd (ssrtype mt) =? o + 1 | None => false end) &&
  is_ssrtype mt false && negb (is_msmtype mt).
Lemma std_all : forallb std_ok std_ssr = true.
Proof. vm_compute. reflexivity. Qed.
Lemma gnss_eqb_eq a b : gnss_eqb a b = true -> a = b.
Proof. destruct a, b; cbn; congruence. Qed.
Lemma sct_eqb_eq a b : sct_eqb a b = true -> a = b.
Proof. destruct a, b; cbn; congruence. Qed.
Lemma std_ssr_ok mt s c : ssr_number mt s c ->
  dispatch mt = KSsr c /\ get_ssr_sys None mt = Some s /\ fst (ssrtype mt) = s /\
  ssr_order c = Some (snd (ssrtype mt) - 1) /\ is_ssrtype mt false = true /\ is_msmtype mt = false.
Proof.
  intros H. apply ssr_number_in in H.
  pose proof (proj1 (forallb_forall _ _) std_all _ H) as E. unfold std_ok in E.
  apply andb_prop in E as [E E5]. apply andb_prop in E as [E E4]. apply andb_prop in E as [E E3].
  apply andb_prop in E as [E1 E2]. apply andb_prop in E3 as [E3 E6].
  destruct (dispatch mt) as [c'| | | | | |]; try discriminate E1. apply sct_eqb_eq in E1 as <-.
  destruct (get_ssr_sys None mt) as [s'|]; [|discriminate E2]. apply gnss_eqb_eq in E2 as <-.
  apply gnss_eqb_eq in E3. destruct (ssr_order c) as [o|]; [|discriminate E6].
  repeat split; auto; [f_equal; lia|now destruct (is_msmtype mt)].
Qed.

(** every number: the tables agree with each other and with the branch taken, except 63 *)
Definition tab_ok (mt : Z) : bool :=
  match ssrtype mt with
  | (NONE, _) => true
  | (s, n) => match ssr_base s with Some b => (mt =? b + n - 1) && btw 1 n 7 | None => false end
  end &&
  match mt2sct mt with
  | None => true
  | Some (s, c) =>
      match get_ssr_sys None mt with Some s' => gnss_eqb s s' | None => false end &&
      (match dispatch mt with KSsr c' => sct_eqb c c' | KNone => sct_eqb c SVTEC | _ => mt =? 63 end)
  end &&
  match dispatch mt with KSsr _ => match get_ssr_sys None mt with Some _ => true | None => false end | _ => true end &&
  match edispatch mt with
  | KSsr c => match mt2sct mt with Some (_, c') => sct_eqb c c' | None => false end
  | _ => true
  end.
Lemma tab_all : forallb tab_ok numbers = true.
Proof. vm_compute. reflexivity. Qed.
Lemma tables_ok mt : 0 <= mt < 4096 ->
  (forall s c, mt2sct mt = Some (s, c) -> get_ssr_sys None mt = Some s /\
     (mt <> 63 -> dispatch mt = KSsr c \/ (dispatch mt = KNone /\ c = SVTEC))) /\
  (forall s n, ssrtype mt = (s, n) -> s <> NONE -> exists c, ssr_number mt s c /\ ssr_order c = Some (n - 1)) /\
  (forall c, dispatch mt = KSsr c -> exists s, get_ssr_sys None mt = Some s) /\
  (forall c, edispatch mt = KSsr c -> exists s, mt2sct mt = Some (s, c)).
Proof.
  intros H. pose proof (proj1 (forallb_forall _ _) tab_all mt (numbers_in mt H)) as E. unfold tab_ok in E.
  apply andb_prop in E as [E E4]. apply andb_prop in E as [E E3]. apply andb_prop in E as [E1 E2].
  split; [|split; [|split]].
  - intros s c Hs. rewrite Hs in E2. apply andb_prop in E2 as [E2 E5].
    destruct (get_ssr_sys None mt) as [s'|]; [|discriminate E2]. apply gnss_eqb_eq in E2 as <-. split; [reflexivity|].
    intros H63. destruct (dispatch mt); try lia.
    + left. apply sct_eqb_eq in E5 as <-. reflexivity.
    + right. apply sct_eqb_eq in E5. auto.
  - intros s n Hs Hn. rewrite Hs in E1.
    assert (B : exists b, ssr_base s = Some b /\ mt = b + (n - 1) /\ 1 <= n < 7).
    { unfold btw in E1. destruct s; try congruence; unfold ssr_base in *; try discriminate E1;
        eexists; (split; [reflexivity|]); lia. }
    destruct B as (b & Hb & -> & Hr).
    assert (C : exists c, ssr_order c = Some (n - 1)).
    { assert (n = 1 \/ n = 2 \/ n = 3 \/ n = 4 \/ n = 5 \/ n = 6) as D by lia.
      destruct D as [-> | [-> | [-> | [-> | [-> | ->]]]]];
        [exists SORB|exists SCLK|exists SCB|exists SOC|exists SURA|exists SHCLK]; reflexivity. }
    destruct C as [c Hc]. exists c. split; [|exact Hc]. now exists b, (n - 1).
  - intros c Hd. rewrite Hd in E3. destruct (get_ssr_sys None mt) as [s|]; [now exists s|discriminate].
  - intros c Hd. rewrite Hd in E4. destruct (mt2sct mt) as [[s c']|]; [|discriminate].
    apply sct_eqb_eq in E4 as <-. now exists s.
Qed.

(** sct2mt is a section of mt2sct *)
Lemma sct2mt_ok c s mt : sct2mt c s = mt -> mt <> -1 -> mt2sct mt = Some (s, c).
Proof.
  intros <-. destruct s, c; vm_compute; intros H; first [reflexivity | congruence].
Qed.

Lemma is_ssr_iff mt : mt <> 1069 -> (is_ssrtype mt false = true <->
  (exists s c, ssr_number mt s c) \/ 1264 <= mt <= 1270).
Proof.
  intros H. unfold is_ssrtype, ssr_t. cbn [existsb fst snd]. split.
  - intros E. destruct (Z_le_dec 1264 mt) as [H1|H1]; [destruct (Z_le_dec mt 1270) as [H2|H2]; [right; lia|lia]|].
    left.
    assert (D : exists b o, (b = 1057 \/ b = 1063 \/ b = 1240 \/ b = 1246 \/ b = 1252 \/ b = 1258) /\
                  0 <= o < 6 /\ mt = b + o).
    { assert (mt < 1063 \/ 1063 <= mt < 1069 \/ 1240 <= mt < 1246 \/ 1246 <= mt < 1252 \/ 1252 <= mt < 1258 \/ 1258 <= mt)
        as [D|[D|[D|[D|[D|D]]]]] by lia.
      - exists 1057, (mt - 1057). lia.
      - exists 1063, (mt - 1063). lia.
      - exists 1240, (mt - 1240). lia.
      - exists 1246, (mt - 1246). lia.
      - exists 1252, (mt - 1252). lia.
      - exists 1258, (mt - 1258). lia. }
    destruct D as (b & o & Hb & Ho & ->).
    assert (S : exists s, ssr_base s = Some b).
    { destruct Hb as [-> | [-> | [-> | [-> | [-> | ->]]]]];
        [exists GPS|exists GLO|exists GAL|exists QZS|exists SBS|exists BDS]; reflexivity. }
    assert (C : exists c, ssr_order c = Some o).
    { assert (o = 0 \/ o = 1 \/ o = 2 \/ o = 3 \/ o = 4 \/ o = 5) as D by lia.
      destruct D as [-> | [-> | [-> | [-> | [-> | ->]]]]];
        [exists SORB|exists SCLK|exists SCB|exists SOC|exists SURA|exists SHCLK]; reflexivity. }
    destruct S as [s Hs], C as [c Hc]. exists s, c, b, o. auto.
  - intros [(s & c & b & o & Hs & Hc & ->)|E]; [|lia].
    assert (0 <= o < 6) by (destruct c; try discriminate Hc; injection Hc as <-; lia).
    destruct s; try discriminate Hs; injection Hs as <-; lia.
Qed.
Lemma ssr_unique mt s c s' c' : ssr_number mt s c -> ssr_number mt s' c' -> s = s' /\ c = c'.
Proof.
  intros H H'. apply std_ssr_ok in H as (A & B & _). apply std_ssr_ok in H' as (A' & B' & _).
  rewrite A in A'. rewrite B in B'. injection A' as <-. injection B' as <-. auto.
Qed.
