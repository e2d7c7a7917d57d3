From Verif Require Import BaseFacts BitProofs CssrFacts TimeModel OsnmaModel OsnmaSpec OsnmaProofs OsnmaTags OsnmaHist OsnmaStep OsnmaAuth.
From Coq Require Import ZifyBool ZifyNat.
Open Scope Z_scope.

Section P.
Variable C : crypto.
Implicit Types s : ost C.
Ltac inj H := injection H as <- <-.

(* ---------- subframe: page buffers ---------- *)
Lemma tag_step_buf k a g st s : o_buf (fst (tag_step k a g st s)) = o_buf s.
Proof.
  unfold tag_step. destruct (tag_k s k) as [tg info]. cbv zeta.
  match goal with |- context [match ?x with _ => _ end] => destruct x as [[m|]|] end; try reflexivity.
  destruct (verify_navmsg _ _ _ _ _ _ _ _) as [[]|]; try reflexivity.
  unfold mark. destruct (_ && _); reflexivity.
Qed.
Lemma tags_loop_buf a g : forall n k st s, o_buf (fst (tags_loop n k a g st s)) = o_buf s.
Proof.
  induction n as [|n IH]; intros k st s; cbn [tags_loop]; [reflexivity|].
  pose proof (tag_step_buf k a g st s) as B. destruct (tag_step _ _ _ _ _) as [s1 [st1|]]; cbn [fst] in *; [|exact B]. rewrite IH. exact B.
Qed.
Definition rows_kept (p : nat) s s' : Prop :=
  b_hk (o_buf s') = b_hk (o_buf s) /\ b_mack (o_buf s') = b_mack (o_buf s) /\
  (b_cnt (o_buf s') = b_cnt (o_buf s) \/ b_cnt (o_buf s') = upd (p - 1) (fun _ => 0) (b_cnt (o_buf s))).
Lemma kept_of p s s1 : b_hk (o_buf s1) = b_hk (o_buf s) -> b_mack (o_buf s1) = b_mack (o_buf s) -> b_cnt (o_buf s1) = b_cnt (o_buf s) -> rows_kept p s s1.
Proof. unfold rows_kept. auto. Qed.
Lemma subframe_buf p a w t g s : rows_kept p s (fst (subframe p a w t g s)).
Proof.
  unfold subframe. destruct (root_stage p s) as [s1 r1] eqn:E1. apply root_stage_spec in E1. destruct E1 as (_ & _ & _ & _ & _ & _ & B1 & _).
  destruct r1 as [u|]; [|apply kept_of; cbn [fst]; rewrite B1; reflexivity].
  destruct (decode_mack p s1) as [s2 r2] eqn:E2. apply mack_frame in E2. destruct E2 as (_ & _ & _ & _ & _ & _ & _ & _ & _ & B2 & _).
  destruct r2 as [[]|]; try (apply kept_of; cbn [fst]; rewrite B2, B1; reflexivity).
  destruct (chain_stage w t g s2) as [s3 r3] eqn:E3. apply chain_stage_spec in E3. destruct E3 as (_ & _ & _ & _ & _ & _ & _ & _ & _ & _ & _ & B3 & _).
  destruct r3 as [u3|]; [|apply kept_of; cbn [fst]; rewrite B3, B2, B1; reflexivity].
  destruct (negb _); [apply kept_of; cbn [fst]; rewrite B3, B2, B1; reflexivity|].
  unfold authenticate. destruct (set_gst_sf _ _) as [gp|]; [|apply kept_of; cbn [fst]; rewrite B3, B2, B1; reflexivity].
  destruct (verify_maclt a gp s3) as [[]|]; try (apply kept_of; cbn [fst]; rewrite B3, B2, B1; reflexivity).
  destruct (verify_macseq a gp s3) as [[]|]; try (apply kept_of; cbn [fst]; rewrite B3, B2, B1; reflexivity).
  pose proof (tags_loop_buf a gp (Z.to_nat (o_nt s3)) 0 false s3) as B4. destruct (tags_loop _ _ _ _ _ _) as [s4 r4]. cbn [fst] in B4.
  destruct r4 as [st|]; [|apply kept_of; cbn [fst]; rewrite B4, B3, B2, B1; reflexivity].
  assert (B5 : o_buf (set_pos s4) = o_buf s4) by (unfold set_pos; destruct (_ <=? _); reflexivity).
  unfold rows_kept, clear_cnt. cbn [fst set_buf o_buf b_hk b_mack b_cnt]. rewrite B5, B4, B3, B2, B1. cbn [save_mack set_buf o_buf b_hk b_mack b_cnt]. auto.
Qed.

(* ---------- time ---------- *)
Lemma gst_total wn tow : 1024 <= wn < 5120 -> 0 <= tow < 604800 ->
  time2gst 1 (gpst2time 1 wn tow) = (wn - 1024, tow) /\ set_gst_sf (wn - 1024) (tow / 30 * 30) = Some (gst (subframe_time wn tow)).
Proof.
  intros W T. assert (E : time2gst 1 (gpst2time 1 wn tow) = (wn - 1024, tow)).
  { unfold time2gst, gpst2time, wt2time, time2wt.
    destruct (Z.ltb_spec tow (-1000000000 * 1)); [lia|]. destruct (Z.gtb_spec tow (1000000000 * 1)); [lia|]. cbn [orb]. cbv zeta.
    rewrite !Z.quot_1_r. rewrite Z.mul_1_r, Z.sub_diag. cbn [TimeModel.gt TimeModel.gs].
    assert (E : TimeModel.gt (epoch2time 1 gst0) = TimeModel.gt (epoch2time 1 gpst0) + 1024 * 604800) by (vm_compute; reflexivity).
    rewrite E. clear E. set (x0 := TimeModel.gt (epoch2time 1 gpst0)) in *. clearbody x0.
    change (86400 * 7) with 604800 in *.
    set (sec := x0 + 604800 * wn + tow - (x0 + 1024 * 604800)).
    assert (ES : sec = (wn - 1024) * 604800 + tow) by (unfold sec; lia). clearbody sec. subst sec.
    assert (Q : ((wn - 1024) * 604800 + tow) ÷ 604800 = wn - 1024) by (symmetry; apply (Z.quot_unique _ 604800 (wn - 1024) tow); lia).
    rewrite Q. f_equal. lia. }
  split; [exact E|].
  assert (P : 0 <= tow / 30 * 30 <= tow) by (pose proof (Z.div_mod tow 30 ltac:(lia)); pose proof (Z.mod_pos_bound tow 30 ltac:(lia)); pose proof (Z.div_pos tow 30); lia).
  destruct (set_gst_sf (wn - 1024) (tow / 30 * 30)) as [g|] eqn:G.
  - destruct (gst_time wn tow _ _ g E T G) as (_ & _ & ->). reflexivity.
  - exfalso. unfold set_gst_sf, gst_pack in G. rewrite Z.div_mul in G by lia. change (2 ^ 12) with 4096 in G. change (2 ^ 20) with 1048576 in G.
    assert (B : (0 <=? wn - 1024) && (wn - 1024 <? 4096) && (0 <=? tow / 30 * 30) && (tow / 30 * 30 <? 1048576) = true) by lia. rewrite B in G. discriminate.
Qed.

(* ---------- invariant ---------- *)
Definition stored nma tow p s := store_page nma tow p (reset_page tow p s).
Lemma decode_pages nma wn tow p a s : length nma = 40%nat -> (1 <= p <= 36)%nat -> 1024 <= wn < 5120 -> 0 <= tow < 604800 ->
  decode nma wn tow p a s = if nth (p - 1) (b_cnt (o_buf (stored nma tow p s))) 0 =? 0x7fff then subframe p a (wn - 1024) (tow / 30 * 30) (gst (subframe_time wn tow)) (stored nma tow p s)
    else (stored nma tow p s, Some false).
Proof.
  intros L P W T. unfold decode, stored. assert (B : (1 <=? p)%nat && (p <=? 36)%nat && (length nma =? 40)%nat = true) by lia. rewrite B. cbn [negb]. cbv zeta.
  destruct (gst_total wn tow W T) as (-> & ->). reflexivity.
Qed.

Definition row_ok (cnt : Z) (hk mk : bits) (l : list (nat * Z * bits)) : Prop :=
  forall k, (k < 15)%nat -> Z.testbit cnt (Z.of_nat k) = true ->
    exists x, last_page k l = Some x /\ slice hk (8 * k) 8 = slice (snd x) 0 8 /\ slice mk (32 * k) 32 = slice (snd x) 8 32.
Definition pinv (h : list event) s : Prop :=
  length (b_cnt (o_buf s)) = 36%nat /\ length (b_hk (o_buf s)) = 36%nat /\ length (b_mack (o_buf s)) = 36%nat /\
  forall p, (1 <= p <= 36)%nat -> let cnt := nth (p - 1) (b_cnt (o_buf s)) 0 in let hk := nth (p - 1) (b_hk (o_buf s)) [] in let mk := nth (p - 1) (b_mack (o_buf s)) [] in
    length hk = 120%nat /\ length mk = 480%nat /\ (forall k, 15 <= k -> Z.testbit cnt k = false) /\ row_ok cnt hk mk (current (pages_of p h)).
Lemma pages_snoc p h e : pages_of p (h ++ [e]) =
  match e with ENma nma wn tow q _ => if (q =? p)%nat then (Z.to_nat (tow mod 30 / 2), subframe_time wn tow, nma) :: pages_of p h else pages_of p h | _ => pages_of p h end.
Proof.
  induction h as [|x h IH]; cbn [app pages_of].
  - destruct e as [|? ? ? q]; [reflexivity|]. destruct (q =? p)%nat; reflexivity.
  - destruct x as [|nma wn tow q a]; [exact IH|]. rewrite IH. destruct e as [|nma' wn' tow' q' a'], (q =? p)%nat; try reflexivity; destruct (q' =? p)%nat; reflexivity.
Qed.
Lemma slice_splice_same (l x : bits) o : (o + length x <= length l)%nat -> slice (splice l o x) o (length x) = x.
Proof.
  intros H. unfold slice, splice. rewrite skipn_app, skipn_all2 by (rewrite firstn_length; lia). rewrite firstn_length, Nat.min_l, Nat.sub_diag by lia.
  rewrite app_nil_l, skipn_O, firstn_app, firstn_all, Nat.sub_diag, firstn_O, app_nil_r. reflexivity.
Qed.
Lemma slice_splice_other (l x : bits) o i n : (o + length x <= length l)%nat -> (i + n <= o \/ o + length x <= i)%nat -> (i + n <= length l)%nat -> slice (splice l o x) i n = slice l i n.
Proof.
  intros H D L. apply (nth_ext _ _ false false).
  - rewrite !slice_length; [reflexivity|lia|rewrite splice_length; lia].
  - intros k K. rewrite slice_length in K by (rewrite splice_length; lia). rewrite !nth_slice by lia. rewrite nth_splice by lia.
    destruct (_ && _) eqn:B; [lia|reflexivity].
Qed.
Lemma stored_inv h s nma wn tow p a : pinv h s -> wf_page (ENma nma wn tow p a) -> pinv (h ++ [ENma nma wn tow p a]) (stored nma tow p s) /\
  exists b, stored nma tow p s = set_buf b s.
Proof.
  intros (L1 & L2 & L3 & I) (LN & P & W & T).
  set (ki := page_no tow). assert (KI : (ki < 15)%nat) by apply page_lt.
  assert (J : (p - 1 < 36)%nat) by lia.
  assert (ST : exists b, stored nma tow p s = set_buf b s /\ length (b_cnt b) = 36%nat /\ length (b_hk b) = 36%nat /\ length (b_mack b) = 36%nat /\
     (forall q, q <> (p - 1)%nat -> nth q (b_cnt b) 0 = nth q (b_cnt (o_buf s)) 0 /\ nth q (b_hk b) [] = nth q (b_hk (o_buf s)) [] /\ nth q (b_mack b) [] = nth q (b_mack (o_buf s)) []) /\
     nth (p - 1) (b_cnt b) 0 = Z.lor (if (ki =? 0)%nat then 0 else nth (p - 1) (b_cnt (o_buf s)) 0) (Z.shiftl 1 (Z.of_nat ki)) /\
     nth (p - 1) (b_hk b) [] = splice (if (ki =? 0)%nat then zeros 120 else nth (p - 1) (b_hk (o_buf s)) []) (8 * ki) (slice nma 0 8) /\
     nth (p - 1) (b_mack b) [] = splice (if (ki =? 0)%nat then splice (nth (p - 1) (b_mack (o_buf s)) []) 0 (zeros 8) else nth (p - 1) (b_mack (o_buf s)) []) (32 * ki) (slice nma 8 32)).
  { unfold stored, store_page, reset_page. fold ki. cbv zeta. destruct (ki =? 0)%nat.
    - eexists. split; [reflexivity|]. cbn [b_cnt b_hk b_mack set_buf o_buf]. rewrite !upd_length. repeat (split; [assumption|]). split.
      + intros q Q. rewrite !nth_upd by (rewrite ?upd_length; lia). destruct (Nat.eqb_spec q (p - 1)); [contradiction|]. auto.
      + rewrite !nth_upd by (rewrite ?upd_length; lia). rewrite Nat.eqb_refl. auto.
    - eexists. split; [reflexivity|]. cbn [b_cnt b_hk b_mack set_buf o_buf]. rewrite !upd_length. repeat (split; [assumption|]). split.
      + intros q Q. rewrite !nth_upd by (rewrite ?upd_length; lia). destruct (Nat.eqb_spec q (p - 1)); [contradiction|]. auto.
      + rewrite !nth_upd by (rewrite ?upd_length; lia). rewrite Nat.eqb_refl. auto. }
  destruct ST as (b & -> & B1 & B2 & B3 & OT & EC & EH & EM). split; [|now exists b].
  unfold pinv. cbn [set_buf o_buf]. repeat (split; [assumption|]). intros q Q. cbv zeta. rewrite pages_snoc.
  destruct (Nat.eqb_spec p q) as [<-|N].
  2:{ destruct (OT (q - 1)%nat ltac:(lia)) as (-> & -> & ->). apply (I q Q). }
  rewrite EC, EH, EM. destruct (I p P) as (LH & LM & HB & RO). clear I OT. cbv zeta in *.
  set (c0 := nth (p - 1) (b_cnt (o_buf s)) 0) in *. set (h0 := nth (p - 1) (b_hk (o_buf s)) []) in *. set (m0 := nth (p - 1) (b_mack (o_buf s)) []) in *.
  set (h1 := if (ki =? 0)%nat then zeros 120 else h0). set (m1 := if (ki =? 0)%nat then splice m0 0 (zeros 8) else m0).
  repeat match goal with |- context [splice ?x (8 * ki) ?y] => lazymatch x with h1 => fail | _ => change (splice x (8 * ki) y) with (splice h1 (8 * ki) y) end end.
  repeat match goal with |- context [splice ?x (32 * ki) ?y] => lazymatch x with m1 => fail | _ => change (splice x (32 * ki) y) with (splice m1 (32 * ki) y) end end.
  assert (LH1 : length h1 = 120%nat) by (subst h1; destruct (ki =? 0)%nat; [reflexivity|exact LH]).
  assert (LM1 : length m1 = 480%nat) by (subst m1; destruct (ki =? 0)%nat; [rewrite splice_length; [exact LM|change (length (zeros 8)) with 8%nat; lia]|exact LM]).
  assert (LS1 : length (slice nma 0 8) = 8%nat) by (apply slice_length; lia). assert (LS2 : length (slice nma 8 32) = 32%nat) by (apply slice_length; lia).
  split; [rewrite splice_length; [exact LH1|rewrite LS1; lia]|]. split; [rewrite splice_length; [exact LM1|rewrite LS2; lia]|]. split.
  { intros k K. rewrite Z.lor_spec. apply orb_false_iff. split.
    - destruct (ki =? 0)%nat; [apply Z.testbit_0_l|]. now apply HB.
    - rewrite Z.shiftl_spec by lia. destruct (Z.eq_dec k (Z.of_nat ki)); [lia|]. destruct (Z_lt_ge_dec k (Z.of_nat ki)); [apply Z.testbit_neg_r; lia|].
      rewrite Z.bit0_eqb || idtac. change 1 with (2 ^ 0). apply Z.pow2_bits_false. lia. }
  intros k K TB. change (Z.to_nat (tow mod 30 / 2)) with ki. cbn [current fst]. destruct (Nat.eq_dec k ki) as [->|NK].
  { exists (ki, subframe_time wn tow, nma). split.
    - destruct (ki =? 0)%nat; unfold last_page; cbn [find fst]; now rewrite Nat.eqb_refl.
    - cbn [snd]. split.
      + pose proof (slice_splice_same h1 (slice nma 0 8) (8 * ki)) as Q1. rewrite LS1 in Q1. apply Q1. lia.
      + pose proof (slice_splice_same m1 (slice nma 8 32) (32 * ki)) as Q1. rewrite LS2 in Q1. apply Q1. lia. }
  rewrite Z.lor_spec, Z.shiftl_spec in TB by lia.
  assert (Z1 : Z.testbit 1 (Z.of_nat k - Z.of_nat ki) = false).
  { destruct (Z_lt_ge_dec (Z.of_nat k) (Z.of_nat ki)); [apply Z.testbit_neg_r; lia|]. change 1 with (2 ^ 0). apply Z.pow2_bits_false. lia. }
  rewrite Z1, orb_false_r in TB. destruct (Nat.eqb_spec ki 0) as [K0|K0]; [rewrite Z.testbit_0_l in TB; discriminate|].
  destruct (RO k K TB) as (x & E & X1 & X2). exists x. split; [|split].
  - unfold last_page in *. cbn [find fst]. destruct (Nat.eqb_spec ki k); [congruence|exact E].
  - subst h1. rewrite slice_splice_other by lia. exact X1.
  - subst m1. rewrite slice_splice_other by lia. exact X2.
Qed.
Lemma kept_inv h p s s' : (1 <= p <= 36)%nat -> pinv h s -> rows_kept p s s' -> pinv h s'.
Proof.
  intros P (L1 & L2 & L3 & I) (E1 & E2 & E3). unfold pinv. rewrite E1, E2.
  destruct E3 as [-> | ->]; [repeat (split; [assumption|]); exact I|].
  rewrite upd_length. repeat (split; [assumption|]). intros q Q. destruct (I q Q) as (LH & LM & HB & RO). cbv zeta in *.
  rewrite nth_upd by lia. split; [exact LH|]. split; [exact LM|]. destruct (Nat.eqb_spec (q - 1) (p - 1)); [|auto].
  split; [intros; apply Z.testbit_0_l|]. intros k K TB. rewrite Z.testbit_0_l in TB. discriminate.
Qed.
Lemma pages_inv pk root h : Forall wf_page h -> pinv h (run h (osnma_new pk root)).
Proof.
  induction h as [|e h IH] using rev_ind; intros W.
  - unfold pinv. cbn [run osnma_new o_buf b_cnt b_hk b_mack]. rewrite !repeat_length. repeat (split; [reflexivity|]).
    intros p P. cbv zeta. assert (N : forall A (x d : A) n k, (k < n)%nat -> nth k (repeat x n) d = x).
    { intros A x d n. induction n as [|n IHn]; intros k K; [lia|]. destruct k; [reflexivity|]. apply IHn. lia. }
    rewrite !N by lia. repeat (split; [reflexivity|]). split; [intros; apply Z.testbit_0_l|]. intros k K TB. rewrite Z.testbit_0_l in TB. discriminate.
  - apply Forall_app in W. destruct W as (W1 & W2). apply Forall_inv in W2. specialize (IH W1). rewrite run_snoc.
    destruct e as [nav prn tow|nma wn tow p a].
    + cbn [step]. unfold pinv. cbn [save_gal_inav]. change (o_buf (save_gal_inav nav prn tow (run h (osnma_new pk root)))) with (o_buf (run h (osnma_new pk root))).
      destruct IH as (L1 & L2 & L3 & I). repeat (split; [assumption|]). intros q Q. rewrite pages_snoc. exact (I q Q).
    + cbn [step]. destruct W2 as (LN & P & W & T). destruct (stored_inv h _ nma wn tow p a IH) as (SI & _); [repeat split; lia || assumption|].
      rewrite decode_pages by (try assumption; lia). destruct (_ =? _); [|exact SI]. eapply kept_inv; [exact P|exact SI|apply subframe_buf].
Qed.
Lemma skipn_plus {A} a : forall b (l : list A), skipn (a + b) l = skipn a (skipn b l).
Proof. intros b. rewrite Nat.add_comm. induction b as [|b IH]; intros [|x l]; cbn [Nat.add skipn]; try reflexivity; [now rewrite skipn_nil|apply IH]. Qed.
Lemma concat_slices n m (l : bits) (f : nat -> bits) : length l = (m * n)%nat -> (forall k, (k < m)%nat -> f k = slice l (n * k) n) -> concat (map f (seq 0 m)) = l.
Proof.
  intros L F. assert (G : forall j i, (i + j = m)%nat -> concat (map f (seq i j)) = skipn (n * i) l).
  { induction j as [|j IH]; intros i I; cbn [seq map concat].
    - rewrite skipn_all2 by nia. reflexivity.
    - rewrite IH, F by lia. unfold slice. replace (n * S i)%nat with (n + n * i)%nat by lia. rewrite skipn_plus. apply firstn_skipn. }
  rewrite (G m 0%nat) by lia. now rewrite Nat.mul_0_r, skipn_O.
Qed.
(** what a page does *)
Lemma page pk root h nma wn tow p a : Forall wf_page h -> wf_page (ENma nma wn tow p a) ->
  let s : ost C := run h (osnma_new pk root) in let l := current (pages_of p (h ++ [ENma nma wn tow p a])) in
  exists b, decode nma wn tow p a s = (set_buf b s, Some false) \/
    (forall k, (k < 15)%nat -> last_page k l <> None) /\ nth (p - 1) (b_hk b) [] = hk_of l /\ nth (p - 1) (b_mack b) [] = mack_of l /\
    decode nma wn tow p a s = subframe p a (wn - 1024) (tow / 30 * 30) (gst (subframe_time wn tow)) (set_buf b s).
Proof.
  intros F W. cbv zeta. set (s := run h (osnma_new pk root) : ost C). pose proof (pages_inv pk root h F) as I.
  destruct (stored_inv h s nma wn tow p a I W) as (SI & b & E). destruct W as (LN & P & W & T).
  rewrite decode_pages by assumption. rewrite E in *. exists b. cbn [set_buf o_buf].
  destruct (Z.eqb_spec (nth (p - 1) (b_cnt b) 0) 32767) as [EC|_]; [right|now left].
  destruct SI as (_ & _ & _ & SI). destruct (SI p P) as (LH & LM & _ & RO). cbv zeta in *. cbn [set_buf o_buf] in *. rewrite EC in RO.
  set (l := current _) in *.
  assert (RA : forall k, (k < 15)%nat -> exists x, last_page k l = Some x /\ slice (nth (p - 1) (b_hk b) []) (8 * k) 8 = slice (snd x) 0 8 /\ slice (nth (p - 1) (b_mack b) []) (32 * k) 32 = slice (snd x) 8 32).
  { intros k K. apply RO; [exact K|]. change 32767 with (Z.ones 15). rewrite Z.ones_spec_low by lia. reflexivity. }
  split; [intros k K; destruct (RA k K) as (x & -> & _); discriminate|]. split; [|split; [|reflexivity]].
  - symmetry. apply (concat_slices 8 15); [exact LH|]. intros k K. destruct (RA k K) as (x & -> & E1 & _). now symmetry.
  - symmetry. apply (concat_slices 32 15); [exact LM|]. intros k K. destruct (RA k K) as (x & -> & _ & E2). now symmetry.
Qed.
End P.
