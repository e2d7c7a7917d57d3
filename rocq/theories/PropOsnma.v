(** C38, C39, C70-C74: Galileo OSNMA. *)
From Verif Require Import BaseFacts OsnmaModel OsnmaSpec OsnmaProofs OsnmaTags OsnmaHist OsnmaStep OsnmaAuth OsnmaToy OsnmaSound OsnmaDsm OsnmaBlocks OsnmaChain OsnmaLut OsnmaLive OsnmaPages OsnmaWit.
From Verif Require Import Base.
Notation length := List.length.
Open Scope Z_scope.

(* ---------------- C38: what authenticated data went through ---------------- *)
(** Full statement: data of satellite [prn] is marked only if some tag under a key of the signed chain ([authentic]) fits it.
    It is false (see the three refutations). What every history guarantees: a tag of some page fits words received before the
    last two beginnings of subframes; at some earlier event a root key message was verified; and in the same subframe the key was
    accepted, by one step to the key the satellite itself sent before, or by the steps to the root key then loaded. *)
Theorem C38_history_partial : forall (C : crypto) pk root h prn iod, Forall wf_event h -> prn <> 37 ->
  let st := fun g => run g (osnma_new (C := C) pk root) in
  chk_nav prn iod (st h) = true ->
  exists g nma wn tow p a r, h = g ++ ENma nma wn tow p a :: r /\
    let g' := g ++ [ENma nma wn tow p a] in let T := subframe_time wn tow in
    tag_ok C (o_kp (st g')) (o_key (st g')) (o_hdr (st g')) (o_tag (st g')) (o_nt (st g')) a (T - 30) prn iod (word g prn) /\
    t_rv (o_stat (st g')) = true /\
    (exists g1, prefix g1 g' /\ t_rv (o_stat (st g1)) = true /\ root_signed C (st g1)) /\
    (exists g2 e, prefix (g2 ++ [e]) g' /\ ended e T /\ t_rv (o_stat (st (g2 ++ [e]))) = true /\ o_key (st (g2 ++ [e])) = o_key (st g') /\
                  key_checked C (st (g2 ++ [e])) T).
Proof. exact history. Qed.
Print Assumptions C38_history_partial.

(** under honest conditions the full statement holds: one set of parameters [p] is loaded, as signed; a key sent one subframe earlier
    that a new key leads to is itself on the chain; and all within one week *)
Theorem C38_sound_partial : forall (C : crypto) pk root h prn iod p,
  let st := fun g => run g (osnma_new (C := C) pk root) in
  Forall wf_event h -> prn <> 37 ->
  (forall g, prefix g h -> t_rv (o_stat (st g)) = true ->
     o_kp (st g) = p /\ params_of (dsm_of (o_did0 (st g)) (st g)) = Some p /\ length (o_hdr (st g)) = 8%nat /\ o_pk (st g) = pk) ->
  (forall g e T lk, prefix (g ++ [e]) h -> ended e T -> keylen (k_ks p) = Some lk ->
     tesla C (k_hf p) (k_alp p) lk 1 (o_key (st (g ++ [e]))) T = o_keyp (st (g ++ [e])) ->
     on_chain C p (o_keyp (st (g ++ [e]))) (T - 30)) ->
  (forall e T, In e h -> ended e T -> 604800 * k_wn p + 3600 * k_towh p <= T < 604800 * (k_wn p + 1)) -> 0 <= k_towh p ->
  chk_nav prn iod (st h) = true ->
  exists key hdr tag nt a T g, prefix g h /\ authentic C pk key T /\ tag_ok C p key hdr tag nt a (T - 30) prn iod (word g prn).
Proof. exact sound. Qed.
Print Assumptions C38_sound_partial.

Definition wfb (e : event) : bool := match e with ENav nav _ _ => (length nav =? 128)%nat | ENma _ _ tow _ _ => (0 <=? tow) && (tow <? 604800) end.
Lemma wfb_ok h : forallb wfb h = true -> Forall wf_event h.
Proof.
  intros H. apply Forall_forall. intros e I. eapply forallb_forall in H; [|exact I]. destruct e; cbn in *.
  - now apply Nat.eqb_eq.
  - apply andb_true_iff in H. rewrite Z.leb_le, Z.ltb_lt in H. exact H.
Qed.
Lemma prefix_nil (g : list event) : prefix g [] -> g = [].
Proof. intros (r & E). destruct g; [reflexivity|discriminate]. Qed.
(** the conditions are those of a genuine history, in which data does become authenticated *)
Example C38_sound_applies :
  let st := fun g => run g (news None) in
  Forall wf_event honest_s /\
  (forall g, prefix g honest_s -> t_rv (o_stat (st g)) = true ->
     o_kp (st g) = p_s /\ params_of (dsm_of (o_did0 (st g)) (st g)) = Some p_s /\ length (o_hdr (st g)) = 8%nat /\ o_pk (st g) = [(1, zeros 16)]) /\
  (forall g e T lk, prefix (g ++ [e]) honest_s -> ended e T -> keylen (k_ks p_s) = Some lk ->
     tesla stamp (k_hf p_s) (k_alp p_s) lk 1 (o_key (st (g ++ [e]))) T = o_keyp (st (g ++ [e])) ->
     on_chain stamp p_s (o_keyp (st (g ++ [e]))) (T - 30)) /\
  (forall e T, In e honest_s -> ended e T -> 604800 * k_wn p_s + 3600 * k_towh p_s <= T < 604800 * (k_wn p_s + 1)) /\
  chk_nav 5 77 (st honest_s) = true /\ chk_nav 5 77 (st (removelast honest_s)) = false.
Proof.
  assert (S : scan good honest_s (news None) = true) by (vm_compute; reflexivity).
  pose proof (scan_ok good honest_s (news None) S) as G. cbv zeta. split; [apply wfb_ok; vm_compute; reflexivity|]. split; [|split; [|split]].
  - intros g P RV. destruct g as [|x g _] using rev_ind; [discriminate RV|]. specialize (G g x P). unfold good in G. rewrite RV in G. cbn [negb orb] in G.
    apply andb_true_iff in G. destruct G as (G & _). rewrite !andb_true_iff in G. destruct G as (((G1 & G2) & G3) & G4).
    split; [now apply kp_eqb_eq|]. split; [|split; [now apply Nat.eqb_eq|now apply pk_eqb_eq]].
    destruct (params_of _) as [q|]; [|discriminate]. f_equal. now apply kp_eqb_eq.
  - intros g e T lk P EN L TE. specialize (G g e P). unfold good in G. apply andb_true_iff in G. destruct G as (_ & G).
    destruct e as [|nma wn tow q a]; [contradiction|]. cbn [ended] in EN. subst T. cbv zeta in G. apply andb_true_iff in G. destruct G as (_ & G).
    injection L as <-. change (k_hf p_s) with 0 in TE. change (k_alp p_s) with alp0 in TE. rewrite TE, beqb_refl in G. cbn [negb orb] in G. apply beqb_eq in G.
    exists 96%nat. split; [reflexivity|]. exact G.
  - intros e T I EN. apply in_split in I. destruct I as (g & r & E). assert (P : prefix (g ++ [e]) honest_s) by (exists r; rewrite <- app_assoc; exact E).
    specialize (G g e P). unfold good in G. apply andb_true_iff in G. destruct G as (_ & G).
    destruct e as [|nma wn tow q a]; [contradiction|]. cbn [ended] in EN. subst T. cbv zeta in G. rewrite !andb_true_iff in G. destruct G as ((G1 & G2) & _).
    apply Z.leb_le in G1. apply Z.ltb_lt in G2. change (k_wn p_s) with 1200. change (k_towh p_s) with 1. lia.
  - split; vm_compute; reflexivity.
Qed.

(** an attacker's chain is accepted once a genuine key has been: a key is compared with the key that the same satellite sent one
    subframe before, which nobody verified. Signatures cannot be forged here ([toy] accepts one message only). *)
Definition last_ev (h : list event) : event := last h (ENav [] 0 0).
Lemma split_last (h : list event) : h <> [] -> h = removelast h ++ [last_ev h].
Proof. intros N. now apply app_removelast_last. Qed.
Definition check (ok : kpar -> bool) (h : list event) : bool :=
  let s := run (removelast h) new0 in let s' := step (last_ev h) s in
  forallb wfb h && negb (chk_nav 6 99 s) && chk_nav 6 99 s' && ok (o_kp s') && beqb (o_key s') (ka 3660) &&
  match last_ev h with ENma _ wn tow _ _ => subframe_time wn tow =? 604800 * 1200 + 3660 | _ => false end.
Lemma check_ok ok h : h <> [] -> check ok h = true -> exists g e, let st := fun g => run g new0 in let T := 604800 * 1200 + 3660 in
  Forall wf_event (g ++ [e]) /\ ended e T /\ chk_nav 6 99 (st g) = false /\ chk_nav 6 99 (st (g ++ [e])) = true /\
  ok (o_kp (st (g ++ [e]))) = true /\ ~ authentic toy [(1, pk0)] (o_key (st (g ++ [e]))) T.
Proof.
  intros N H. unfold check in H. exists (removelast h), (last_ev h). cbv beta zeta in *. rewrite run_snoc, <- (split_last h N).
  apply andb_prop in H. destruct H as (H & H6). apply andb_prop in H. destruct H as (H & H5). apply andb_prop in H. destruct H as (H & H4).
  apply andb_prop in H. destruct H as (H & H3). apply andb_prop in H. destruct H as (H1 & H2). apply negb_true_iff in H2. apply beqb_eq in H5.
  split; [now apply wfb_ok|]. split; [|split; [exact H2|split; [exact H3|split; [exact H4|rewrite H5; now apply ka_not]]]].
  destruct (last_ev h); [discriminate|]. cbn [ended]. now apply Z.eqb_eq in H6.
Qed.
Theorem C38_key_refuted : exists h e, let st := fun g => run g new0 in let T := 604800 * 1200 + 3660 in
  Forall wf_event (h ++ [e]) /\ ended e T /\ chk_nav 6 99 (st h) = false /\ chk_nav 6 99 (st (h ++ [e])) = true /\
  k_kroot (o_kp (st (h ++ [e]))) = k0 3570 /\ ~ authentic toy [(1, pk0)] (o_key (st (h ++ [e]))) T.
Proof.
  destruct (check_ok (fun p => beqb (k_kroot p) (k0 3570)) forged_key ltac:(discriminate) ltac:(vm_compute; reflexivity)) as (h & e & W & E & F & T & K & A). exists h, e. cbv beta zeta in *.
  apply beqb_eq in K. exact (conj W (conj E (conj F (conj T (conj K A))))).
Qed.
Print Assumptions C38_key_refuted.
(** a DSM-KROOT that arrives after the verified one replaces it unverified *)
Theorem C38_root_refuted : exists h e, let st := fun g => run g new0 in let T := 604800 * 1200 + 3660 in
  Forall wf_event (h ++ [e]) /\ ended e T /\ chk_nav 6 99 (st h) = false /\ chk_nav 6 99 (st (h ++ [e])) = true /\
  k_kroot (o_kp (st (h ++ [e]))) <> k0 3570 /\ k_ds (o_kp (st (h ++ [e]))) <> ds0 /\ ~ authentic toy [(1, pk0)] (o_key (st (h ++ [e]))) T.
Proof.
  destruct (check_ok (fun p => negb (beqb (k_kroot p) (k0 3570)) && negb (beqb (k_ds p) ds0)) later_root ltac:(discriminate) ltac:(vm_compute; reflexivity)) as (h & e & W & E & F & T & K & A). exists h, e. cbv beta zeta in *.
  apply andb_prop in K. destruct K as (K1 & K2). apply negb_true_iff in K1, K2. apply beqb_neq in K1, K2. exact (conj W (conj E (conj F (conj T (conj K1 (conj K2 A)))))).
Qed.
Print Assumptions C38_root_refuted.
(** the message checked by the signature is that in the buffer, the root key used that read from it before: exchanging a block in
    between gives an attacker's root key under a genuine signature *)
Theorem C38_swap_refuted : exists h e, let st := fun g => run g new0 in let T := 604800 * 1200 + 3660 in
  Forall wf_event (h ++ [e]) /\ ended e T /\ chk_nav 6 99 (st h) = false /\ chk_nav 6 99 (st (h ++ [e])) = true /\
  k_kroot (o_kp (st (h ++ [e]))) <> k0 3570 /\ k_ds (o_kp (st (h ++ [e]))) = ds0 /\ ~ authentic toy [(1, pk0)] (o_key (st (h ++ [e]))) T.
Proof.
  destruct (check_ok (fun p => negb (beqb (k_kroot p) (k0 3570)) && beqb (k_ds p) ds0) swapped_root ltac:(discriminate) ltac:(vm_compute; reflexivity)) as (h & e & W & E & F & T & K & A). exists h, e. cbv beta zeta in *.
  apply andb_prop in K. destruct K as (K1 & K2). apply negb_true_iff in K1. apply beqb_neq in K1. apply beqb_eq in K2. exact (conj W (conj E (conj F (conj T (conj K1 (conj K2 A)))))).
Qed.
Print Assumptions C38_swap_refuted.

(* ---------------- C39: DSM blocks ---------------- *)
(** [l]: blocks of the DSM on this chain since the beginning or since it was last reported. A report means that all announced blocks
    are there and that the message, the blocks joined, passes its check; conversely if no block number beyond the announced ones came. *)
Theorem C39_blocks_partial : forall (C : crypto) c d l (s : ost C) hk s' r, receiving C c d l s -> length hk = 120%nat -> hk_live hk -> hk_cid hk = c -> hk_did hk = d ->
  decode_hk hk s = (s', r) ->
  (r = Some true -> complete (l ++ [hk]) /\ dsm_ok C d (slice hk 0 8) (joined (l ++ [hk])) s) /\
  ((forall x, In x (l ++ [hk]) -> hk_bid x < announced (l ++ [hk])) ->
   complete (l ++ [hk]) -> dsm_ok C d (slice hk 0 8) (joined (l ++ [hk])) s -> r = Some true) /\
  (complete (l ++ [hk]) -> firstn (104 * Z.to_nat (announced (l ++ [hk]))) (dsm_of d s') = joined (l ++ [hk])).
Proof. exact report. Qed.
Print Assumptions C39_blocks_partial.
(** order and repetition do not matter *)
Example C39_blocks_ex : let l := map (blk 1 dsm_s) [3; 0; 6; 3; 1; 2; 5]%nat in
  snd (feed l (news None)) = Some false /\ (let '(s', r) := feed (l ++ [blk 1 dsm_s 4]) (news None) in r = Some true /\ firstn 728 (dsm_of 1 s') = dsm_s) /\ joined (l ++ [blk 1 dsm_s 4]) = dsm_s.
Proof. vm_compute. repeat split. Qed.
Definition stray : list bits := hkroot 1 9 (zeros 104) :: map (blk 1 dsm_s) [3; 0; 6; 1; 2; 5]%nat.
(** a block with a number beyond the announced blocks (a bit error, say) keeps the complete DSM from being reported *)
Theorem C39_stray_refuted : exists l hk, (forall x, In x (l ++ [hk]) -> length x = 120%nat /\ hk_live x /\ hk_cid x = 0 /\ hk_did x = 1) /\
  complete (l ++ [hk]) /\ dsm_ok stamp 1 (slice hk 0 8) (joined (l ++ [hk])) (news None) /\ snd (feed (l ++ [hk]) (news None)) = Some false /\
  snd (feed (filter (fun x => negb (hk_bid x =? 9)) (l ++ [hk])) (news None)) = Some true.
Proof.
  exists stray, (blk 1 dsm_s 4). split.
  { assert (Q : forallb (fun x => (length x =? 120)%nat && (bval (slice x 0 2) =? 1) && negb (bval (slice x 4 3) =? 0) && (hk_cid x =? 0) && (hk_did x =? 1))
       (stray ++ [blk 1 dsm_s 4]) = true) by (vm_compute; reflexivity).
    intros x I. eapply forallb_forall in Q; [|exact I]. rewrite !andb_true_iff, !Z.eqb_eq, Nat.eqb_eq, negb_true_iff, Z.eqb_neq in Q. unfold hk_live. tauto. }
  split.
  { split; [vm_compute; reflexivity|]. intros b B. assert (E : announced (stray ++ [blk 1 dsm_s 4]) = 7) by (vm_compute; reflexivity). assert (B' : 0 <= b < 7) by (rewrite <- E; exact B). clear B.
    assert (D : b = 0 \/ b = 1 \/ b = 2 \/ b = 3 \/ b = 4 \/ b = 5 \/ b = 6) by lia.
    destruct D as [->|[->|[->|[->|[->|[->| ->]]]]]]; vm_compute; discriminate. }
  split; [|split; vm_compute; reflexivity].
  exists p_s, 96%nat, 16%nat. split; [vm_compute; reflexivity|]. split; [reflexivity|]. split; [left; reflexivity|]. split; [vm_compute; reflexivity|]. split; [vm_compute; discriminate|].
  vm_compute. reflexivity.
Qed.
Print Assumptions C39_stray_refuted.
(** a change of the chain seen with another DSM leaves the blocks of the old chain in place: a mixed message is reported *)
Definition dsm_m : bits := kroot_dsm (ks 3570) ds_s (firstn 16 (hs (signed_part hdr1 (kroot_dsm (ks 3570) ds_s []) 96 ++ ds_s))).
Theorem C39_chain_refuted : exists l0 l1, (forall x, In x l0 -> hk_cid x = 0) /\ (forall x, In x l1 -> hk_cid x = 1) /\
  snd (feed (l0 ++ l1) (news None)) = Some true /\ ~ complete (filter (fun x => hk_did x =? 1) l1).
Proof.
  exists (map (blk 1 dsm_m) [0; 1; 2; 3; 4; 5]%nat), [blk1 2 dsm_m 3; blk1 1 dsm_m 6]. split; [|split; [|split]].
  - assert (Q : forallb (fun x => hk_cid x =? 0) (map (blk 1 dsm_m) [0; 1; 2; 3; 4; 5]%nat) = true) by (vm_compute; reflexivity).
    intros x I. eapply forallb_forall in Q; [|exact I]. now apply Z.eqb_eq.
  - assert (Q : forallb (fun x => hk_cid x =? 1) [blk1 2 dsm_m 3; blk1 1 dsm_m 6] = true) by (vm_compute; reflexivity).
    intros x I. eapply forallb_forall in Q; [|exact I]. now apply Z.eqb_eq.
  - vm_compute. reflexivity.
  - intros (Q & _). vm_compute in Q. discriminate.
Qed.
Print Assumptions C39_chain_refuted.
(** blocks received before another DSM identifier still count *)
Theorem C39_identifier_refuted : exists l0 x l1, (forall y, In y (l0 ++ l1) -> hk_did y = 1) /\ hk_did x = 2 /\
  snd (feed (l0 ++ x :: l1) (news None)) = Some true /\ ~ complete l1.
Proof.
  exists (map (blk 1 dsm_s) [0; 1; 2]%nat), (blk 2 dsm_s 3), (map (blk 1 dsm_s) [3; 4; 5; 6]%nat). split; [|split; [|split]].
  - assert (Q : forallb (fun x => hk_did x =? 1) (map (blk 1 dsm_s) [0; 1; 2]%nat ++ map (blk 1 dsm_s) [3; 4; 5; 6]%nat) = true) by (vm_compute; reflexivity).
    intros y I. eapply forallb_forall in Q; [|exact I]. now apply Z.eqb_eq.
  - vm_compute. reflexivity.
  - vm_compute. reflexivity.
  - intros (Q & _). vm_compute in Q. discriminate.
Qed.
Print Assumptions C39_identifier_refuted.

(* ---------------- C70: TESLA chain ---------------- *)
(** in the week of the root key, a first key is accepted exactly if it is on the chain of the root key *)
Theorem C70_root_partial : forall (C : crypto) (s : ost C) key w t lk, t_rv (o_stat s) = true -> t_kc (o_stat s) = false ->
  keylen (k_ks (o_kp s)) = Some lk -> hf_ok (k_hf (o_kp s)) -> w = k_wn (o_kp s) -> 1 <= w < 4096 -> 0 <= k_towh (o_kp s) -> 3600 * k_towh (o_kp s) <= t < 604800 ->
  exists b, verify_key_chain key w t s = (set_stat (st_kc b (o_stat s)) s, Some b) /\ (b = true <-> on_chain C (o_kp s) key (604800 * w + t)).
Proof. exact accept_root. Qed.
Print Assumptions C70_root_partial.
(** a later key is accepted exactly if it leads in one step to the preceding key, also across the week *)
Theorem C70_next : forall (C : crypto) (s : ost C) key w t lk, t_rv (o_stat s) = true -> t_kc (o_stat s) = true ->
  keylen (k_ks (o_kp s)) = Some lk -> hf_ok (k_hf (o_kp s)) -> 1 <= w < 4096 -> 0 <= t < 604800 ->
  exists b, verify_key_chain key w t s = (set_stat (st_kc b (o_stat s)) s, Some b) /\
    (b = true <-> tesla C (k_hf (o_kp s)) (k_alp (o_kp s)) lk 1 key (604800 * w + t) = o_keyp s).
Proof. exact accept_next. Qed.
Print Assumptions C70_next.
Example C70_ex : let s := set_kp p_s (set_stat (STT true true false false false false) (news None)) in
  snd (verify_key_chain (ks 3690) 1200 3690 s) = Some true /\ snd (verify_key_chain (ks 3630) 1200 3600 s) = Some false /\
  snd (verify_key_chain (ks 3690) 1200 3690 (set_keys (ks 3660) (zeros 96) (set_stat (STT true true true false false false) (news None)))) = None /\
  snd (verify_key_chain (ks 3690) 1200 3690 (set_keys (ks 3660) (zeros 96) (set_kp p_s (set_stat (STT true true true false false false) (news None))))) = Some true.
Proof. vm_compute. repeat split. Qed.
(** across the end of the week the stamps are wrong (one week less in every further turn), and a key of the chain is refused *)
Theorem C70_week_refuted : exists (s : ost stamp) key, t_rv (o_stat s) = true /\ t_kc (o_stat s) = false /\ keylen (k_ks (o_kp s)) = Some 96%nat /\ hf_ok (k_hf (o_kp s)) /\
  on_chain stamp (o_kp s) key (604800 * 1200 + 0) /\ snd (verify_key_chain key 1200 0 s) = Some false.
Proof.
  exists s_wk, key_wk. do 3 (split; [reflexivity|]). split; [left; reflexivity|]. split; [|vm_compute; reflexivity].
  exists 96%nat. split; [reflexivity|]. vm_compute. reflexivity.
Qed.
Print Assumptions C70_week_refuted.

(* ---------------- C71: new public keys ---------------- *)
(** a public key is taken from a DSM-PKR exactly if it is a leaf of the Merkle tree with the loaded root and the padding is right *)
Theorem C71_pkr : forall (C : crypto) did (s s' : ost C) r, decode_dsm_pkr did s = (s', r) ->
  (r = Some true <-> exists root id key, o_root s = Some root /\ pkr_ok C (k_hf (o_kp s)) root (dsm_of did s) id key) /\
  (r = Some true -> exists root id key, o_root s = Some root /\ pkr_ok C (k_hf (o_kp s)) root (dsm_of did s) id key /\ o_pk s' = zset id key (o_pk s)) /\
  (r <> Some true -> s' = s).
Proof. exact pkr_iff. Qed.
Print Assumptions C71_pkr.
Example C71_ex : let s := set_kp p_s (news (Some root_s)) in
  (let '(s', r) := feed (map (blk 13 pkr_s) (seq 0 13)) s in r = Some true /\ zget 2 (o_pk s') = Some key_new) /\
  (let '(s', r) := feed (map (blk 13 pkr_s) (seq 0 13)) (set_kp p_s (news (Some (map negb root_s)))) in r = Some false /\ zget 2 (o_pk s') = None).
Proof. vm_compute. repeat split. Qed.
(** before any DSM-KROOT the hash function is not known and a genuine DSM-PKR raises an exception *)
Theorem C71_first_refuted : exists root l id key, pkr_ok stamp 0 root (joined l) id key /\
  (forall s r, feed l (news (Some root)) = (s, r) -> r = None /\ zget id (o_pk s) = None).
Proof.
  exists root_s, (map (blk 13 pkr_s) (seq 0 13)), 2, key_new. split.
  - exists 13, 264. split; [vm_compute; reflexivity|]. split; [lia|]. split; [vm_compute; reflexivity|]. split; [lia|]. split; [lia|]. split; [left; reflexivity|]. cbv zeta.
    split; [vm_compute; reflexivity|]. split; [vm_compute; reflexivity|]. split; vm_compute; reflexivity.
  - intros s r H. assert (S : let '(s', r') := feed (map (blk 13 pkr_s) (seq 0 13)) (news (Some root_s)) in r' = None /\ zget 2 (o_pk s') = None) by (vm_compute; split; reflexivity).
    rewrite H in S. exact S.
Qed.
Print Assumptions C71_first_refuted.

(* ---------------- C72: pages of a subframe ---------------- *)
(** a page changes only the page buffers, or fifteen pages are there since the last first page and the HKROOT and MACK sections
    processed are made of the most recent of each *)
Theorem C72_pages_partial : forall (C : crypto) pk root h nma wn tow p a, Forall wf_page h -> wf_page (ENma nma wn tow p a) ->
  let s : ost C := run h (osnma_new pk root) in let l := current (pages_of p (h ++ [ENma nma wn tow p a])) in
  exists b, decode nma wn tow p a s = (set_buf b s, Some false) \/
    (forall k, (k < 15)%nat -> last_page k l <> None) /\ nth (p - 1) (b_hk b) [] = hk_of l /\ nth (p - 1) (b_mack b) [] = mack_of l /\
    decode nma wn tow p a s = subframe p a (wn - 1024) (tow / 30 * 30) (gst (subframe_time wn tow)) (set_buf b s).
Proof. exact page. Qed.
Print Assumptions C72_pages_partial.
Example C72_ex : let h := pages wn0 3600 5 (blk 1 dsm_s 0) (zeros 480) in
  let s := run h (news None) in firstn 104 (dsm_of 1 s) = firstn 104 dsm_s /\ zget 1 (o_dsm (run (removelast h) (news None))) = None /\
  hk_of (current (pages_of 5 h)) = blk 1 dsm_s 0.
Proof. vm_compute. repeat split. Qed.
Definition wfpb (e : event) : bool := match e with
  | ENma nma wn tow p _ => (length nma =? 40)%nat && (1 <=? p)%nat && (p <=? 36)%nat && (1024 <=? wn) && (wn <? 5120) && (0 <=? tow) && (tow <? 604800) | _ => true end.
Lemma wfpb_ok h : forallb wfpb h = true -> Forall wf_page h.
Proof.
  intros H. apply Forall_forall. intros e I. eapply forallb_forall in H; [|exact I]. clear I. destruct e; cbn [wfpb wf_page] in *; [exact Logic.I|].
  rewrite !andb_true_iff, !Nat.leb_le, Nat.eqb_eq, !Z.leb_le, !Z.ltb_lt in H. lia.
Qed.
Definition hk_a : bits := hkroot 1 0 (bitsof 104 (3 ^ 60)).
Definition hk_b : bits := hkroot 1 0 (bitsof 104 (5 ^ 40)).
(** pages of different subframes are put together when the first page of the later one is lost: a block is stored that no subframe carried *)
Theorem C72_mixed_refuted : exists hk1 hk2 h, h = firstn 14 (pages wn0 3600 5 hk1 (zeros 480)) ++ skipn 14 (pages wn0 3630 5 hk2 (zeros 480)) /\
  Forall wf_page h /\ length hk1 = 120%nat /\ length hk2 = 120%nat /\
  let d := firstn 104 (dsm_of 1 (run h (news None))) in length d = 104%nat /\ d <> skipn 16 hk1 /\ d <> skipn 16 hk2 /\ zget 1 (o_dsm (run h (news None))) <> None.
Proof.
  exists hk_a, hk_b, (firstn 14 (pages wn0 3600 5 hk_a (zeros 480)) ++ skipn 14 (pages wn0 3630 5 hk_b (zeros 480))).
  split; [reflexivity|]. split; [apply wfpb_ok; vm_compute; reflexivity|].
  split; [vm_compute; reflexivity|]. split; [vm_compute; reflexivity|]. cbv zeta.
  split; [vm_compute; reflexivity|]. split; [vm_compute; discriminate|]. split; [vm_compute; discriminate|]. vm_compute; discriminate.
Qed.
Print Assumptions C72_mixed_refuted.

(* ---------------- C73: MAC look-up table ---------------- *)
(** tables with six tags: the check passes exactly if every tag has the satellite and the kind of data of its entry *)
Theorem C73_lut_partial : forall (C : crypto) a t (s : ost C) f1 f2, 0 <= t < 4096 * 604800 -> lut (k_maclt (o_kp s)) = Some (f1, f2) -> o_nt s = 6 -> 0 <= k_ts (o_kp s) < 16 ->
  exists b, verify_maclt a (gst t) s = Some b /\
   (b = true <-> forall k, (1 <= k <= 5)%nat ->
      fits a (nth (k - 1) (if t mod 60 =? 0 then f1 else f2) (Flex, 0))
        (tag_prn (o_tag s) (tagbytes (k_ts (o_kp s))) k) (tag_adkd (o_tag s) (tagbytes (k_ts (o_kp s))) k)).
Proof. exact maclt_iff. Qed.
Print Assumptions C73_lut_partial.
Definition with_tags (m ts nt : Z) (tag : bits) : ost stamp :=
  set_tag nt tag (set_kp (KP 1 0 0 0 0 ts m 1200 1 alp0 ds_s (ks 3570)) (set_stat (STT true true true false false false) (news None))).
Definition tags_of (l : list (Z * Z)) : bits := zeros 56 ++ concat (map (fun '(d, a) => zeros 40 ++ bitsof 8 d ++ bitsof 4 a ++ bitsof 4 0) l).
Example C73_ex : verify_maclt 5 (gst 60) (with_tags 27 9 6 (tags_of [(30, 0); (31, 0); (30, 0); (5, 12); (30, 0)])) = Some true /\
  verify_maclt 5 (gst 60) (with_tags 27 9 6 (tags_of [(30, 0); (31, 0); (30, 0); (6, 12); (30, 0)])) = Some false /\
  verify_maclt 5 (gst 90) (with_tags 27 9 6 (tags_of [(30, 0); (31, 0); (5, 4); (5, 12); (30, 0)])) = Some true /\
  verify_maclt 5 (gst 90) (with_tags 35 9 6 (tags_of [(30, 12); (31, 7); (5, 12); (5, 12); (30, 0)])) = Some true.
Proof. vm_compute. repeat split. Qed.
(** tables with four or five tags: in the second subframe of a minute nothing passes, whatever the tags *)
Theorem C73_second_never : forall (C : crypto) a t (s : ost C), 0 <= t < 4096 * 604800 -> t mod 60 <> 0 -> k_maclt (o_kp s) = 31 \/ 36 <= k_maclt (o_kp s) <= 41 ->
  verify_maclt a (gst t) s <> Some true.
Proof. exact maclt_never. Qed.
Print Assumptions C73_second_never.
(** table 28, ten tags: entries of the first subframe are used in the second, from the seventh on; the section that follows the
    second list (00S 00E 00E 00S 00E 00E 04S 12S 00E 00E) is refused *)
Theorem C73_ten_refuted : exists l, length l = 9%nat /\
  map snd l = [0; 0; 0; 0; 0; 4; 12; 0; 0] /\ Forall2 (fun own e => own = true -> fst e = 5) [false; false; true; false; false; true; true; false; false] l /\
  verify_maclt 5 (gst 90) (with_tags 28 6 10 (zeros 40 ++ concat (map (fun '(d, a) => zeros 24 ++ bitsof 8 d ++ bitsof 4 a ++ bitsof 4 0) l))) = Some false.
Proof.
  exists [(30, 0); (31, 0); (5, 0); (30, 0); (31, 0); (5, 4); (5, 12); (30, 0); (31, 0)]. split; [reflexivity|]. split; [reflexivity|]. split; [|vm_compute; reflexivity].
  repeat constructor; try discriminate.
Qed.
Print Assumptions C73_ten_refuted.

(* ---------------- C74: genuine sections are authenticated ---------------- *)
(** six tags, a subframe that does not begin the week: a section in order makes every tag that fits count; otherwise nothing changes.
    [at_least s prn iod m]: data [iod] of [prn] was found right at least [m] times (chk_nav asks for [o_vmin s] times). *)
Theorem C74_live_partial : forall (C : crypto) prn0 a w x (s : ost C), 0 <= a < 256 -> 0 <= w < 4096 -> 30 <= x < 604800 -> x mod 30 = 0 ->
  nav_wf C s -> length (o_hdr s) = 8%nat -> 0 <= k_ts (o_kp s) < 16 -> mac_ok C s -> o_nt s = 6 ->
  (8 * (6 * (tagbytes (k_ts (o_kp s)) + 2)) <= length (o_tag s))%nat -> lut (k_maclt (o_kp s)) <> None ->
  exists s' b, authenticate prn0 a w x s = (s', Some b) /\
    (~ section_ok C (o_kp s) (o_key s) (o_tag s) a (604800 * w + x - 30) -> s' = s /\ b = false) /\
    (section_ok C (o_kp s) (o_key s) (o_tag s) a (604800 * w + x - 30) -> forall prn iod m e, zget prn (o_nav s) = Some e -> 1 <= prn <= 36 -> 0 <= m -> at_least C s prn iod m ->
       tag_ok C (o_kp s) (o_key s) (o_hdr s) (o_tag s) (o_nt s) a (604800 * w + x - 30) prn iod (wd (n_c e)) -> at_least C s' prn iod (m + 1)).
Proof. exact live. Qed.
Print Assumptions C74_live_partial.
(** tags of 24, 32 and 40 bits: tags, previous and current key are read where the section has them *)
Theorem C74_layout_partial : forall (C : crypto) prn (s : ost C) lk lt, t_ld (o_stat s) = true -> keylen (k_ks (o_kp s)) = Some lk ->
  (k_ts (o_kp s) = 6 /\ lt = 24%nat \/ k_ts (o_kp s) = 8 /\ lt = 32%nat \/ k_ts (o_kp s) = 9 /\ lt = 40%nat) ->
  let n := ((480 - lk) / (lt + 16))%nat in
  exists s', decode_mack prn s = (s', Some true) /\ o_nt s' = Z.of_nat n /\ o_tag s' = firstn (n * (lt + 16)) (nth (prn - 1) (b_mackp (o_buf s)) []) /\
    o_keyp s' = slice (nth (prn - 1) (b_mackp (o_buf s)) []) (n * (lt + 16)) lk /\ o_keyc s' = slice (nth (prn - 1) (b_mackc (o_buf s)) []) (n * (lt + 16)) lk.
Proof. exact mack_layout. Qed.
Print Assumptions C74_layout_partial.
Example C74_ex : let s := run (removelast honest_s) (news None) in let s' := run honest_s (news None) in
  chk_nav 5 77 s = false /\ chk_nav 5 77 s' = true /\ vcount s' 5 77 = Some 1 /\ o_nt s' = 6 /\ (length (o_tag s') = 336)%nat /\ beqb (o_keyc s') (ks 3660) = true.
Proof. vm_compute. repeat split. Qed.
(** in the first subframe of a week nothing is authenticated: an exception is raised *)
Theorem C74_week_never : forall (C : crypto) prn0 a w x (s : ost C), 0 <= x < 30 -> snd (authenticate prn0 a w x s) = None.
Proof. exact week_start. Qed.
Print Assumptions C74_week_never.
(** tags of 20 bits, 36 bits with their information, are not byte-aligned: the key is not read where it is *)
Theorem C74_size_refuted : exists (s : ost stamp) tags key, length tags = (10 * 36)%nat /\ length key = 96%nat /\
  t_ld (o_stat s) = true /\ k_ts (o_kp s) = 5 /\ k_ks (o_kp s) = 0 /\ nth 4 (b_mackc (o_buf s)) [] = tags ++ key ++ zeros 24 /\
  (let '(s', r) := decode_mack 5 s in r = Some true /\ o_nt s' = 10 /\ o_keyc s' <> key).
Proof.
  pose (tags := concat (map (fun k => bitsof 20 (Z.of_nat k * 77777) ++ bitsof 16 (Z.of_nat k * 5001)) (seq 0 10))). pose (key := ks 3660).
  pose (m := tags ++ key ++ zeros 24). pose (s0 := with_tags 27 5 0 []).
  exists (set_buf (BUF (repeat 0 36) (repeat (zeros 120) 36) (repeat m 36) (repeat m 36) (repeat m 36)) s0), tags, key.
  split; [vm_compute; reflexivity|]. split; [vm_compute; reflexivity|]. split; [reflexivity|]. split; [reflexivity|]. split; [reflexivity|]. split; [reflexivity|].
  vm_compute. split; [reflexivity|]. split; [reflexivity|discriminate].
Qed.
Print Assumptions C74_size_refuted.
