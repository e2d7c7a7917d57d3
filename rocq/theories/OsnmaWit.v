(** Witnesses for the OSNMA properties with a hash function that is cheap to compute ([stamp], OsnmaChain.v). *)
From Verif Require Import BaseFacts OsnmaModel OsnmaSpec OsnmaToy OsnmaProofs OsnmaChain.
Open Scope Z_scope.

Definition news (root : option bits) : ost stamp := osnma_new (C := stamp) [(1, zeros 16)] root.
Definition hs (m : bits) : bits := c_hash stamp 0 m.
(** a genuine history: root key at 3600 s of week 1200, tags at 3630 s, their key at 3660 s *)
Definition top_s : bits := bitsof 96 (987654321 * 987654321).
Definition ks (t : Z) : bits := tesla stamp 0 alp0 96 (Z.to_nat ((3720 - t) / 30)) top_s (604800 * wn0 + 3720).
Definition ds_s : bits := bitsof 512 (3 ^ 300).
Definition dsm_s : bits := kroot_dsm (ks 3570) ds_s (firstn 16 (hs (signed_part hdr0 (kroot_dsm (ks 3570) ds_s []) 96 ++ ds_s))).
Definition macs (key m : bits) : bits := firstn 128 (key ++ m ++ zeros 128).
Definition mack_s (p t iod : Z) (key disclosed : bits) : bits :=
  let tm := 604800 * wn0 + t in
  firstn 40 (macs key (auth_msg p p tm 1 (firstn 2 hdr0) (nav_data0 iod))) ++ firstn 12 (macs key (bitsof 8 p ++ gst tm)) ++ bitsof 4 0 ++
  concat (map (fun i => zeros 40 ++ i) (if t mod 60 =? 0 then infos p else infos6 p)) ++ disclosed ++ zeros 48.
Definition sub_s (p : nat) (t iod : Z) (key disclosed : bits) : list event :=
  send_nav (Z.of_nat p) t iod ++ pages wn0 t p (hkroot 3 1 (zeros 104)) (mack_s (Z.of_nat p) t iod key disclosed).
Definition honest_s : list event :=
  send_nav 5 3600 77 ++ send_dsm wn0 3600 11 1 dsm_s ++ sub_s 5 3630 77 (ks 3660) (ks 3630) ++ sub_s 5 3660 77 (ks 3690) (ks 3660).
Definition p_s : kpar := KP 1 0 0 0 0 9 27 1200 1 alp0 ds_s (ks 3570).

(** a check of the state after every event *)
Fixpoint scan {C} (f : event -> ost C -> bool) (h : list event) (s : ost C) : bool :=
  match h with [] => true | e :: r => let s' := step e s in f e s' && scan f r s' end.
Lemma scan_ok {C} f : forall h (s : ost C), scan f h s = true -> forall g e, prefix (g ++ [e]) h -> f e (run (g ++ [e]) s) = true.
Proof.
  induction h as [|x h IH]; intros s H g e (r & E).
  - destruct g; discriminate.
  - cbn [scan] in H. cbv zeta in H. apply andb_true_iff in H. destruct H as (H1 & H2). destruct g as [|y g]; cbn [app] in E; injection E as -> E.
    + exact H1.
    + cbn [app run]. apply (IH (step y s) H2 g e). exists r. exact E.
Qed.
Definition kp_eqb (a b : kpar) : bool :=
  (k_pkid a =? k_pkid b) && (k_cidkr a =? k_cidkr b) && (k_hf a =? k_hf b) && (k_mf a =? k_mf b) && (k_ks a =? k_ks b) && (k_ts a =? k_ts b) &&
  (k_maclt a =? k_maclt b) && (k_wn a =? k_wn b) && (k_towh a =? k_towh b) && beqb (k_alp a) (k_alp b) && beqb (k_ds a) (k_ds b) && beqb (k_kroot a) (k_kroot b).
Lemma kp_eqb_eq a b : kp_eqb a b = true -> a = b.
Proof.
  unfold kp_eqb. rewrite !andb_true_iff, !Z.eqb_eq, !beqb_eq. destruct a, b. cbn. intuition congruence.
Qed.
Fixpoint pk_eqb (a b : dict Z bits) : bool :=
  match a, b with [], [] => true | (i, x) :: a, (j, y) :: b => (i =? j) && beqb x y && pk_eqb a b | _, _ => false end.
Lemma pk_eqb_eq : forall a b, pk_eqb a b = true -> a = b.
Proof.
  induction a as [|[i x] a IH]; intros [|[j y] b] H; try discriminate; [reflexivity|]. cbn [pk_eqb] in H.
  rewrite !andb_true_iff, Z.eqb_eq, beqb_eq in H. destruct H as ((-> & ->) & H). f_equal. now apply IH.
Qed.
(** premises of [sound] after one event *)
Definition good (e : event) (s : ost stamp) : bool :=
  (negb (t_rv (o_stat s)) ||
   (kp_eqb (o_kp s) p_s && match params_of (dsm_of (o_did0 s) s) with Some q => kp_eqb q p_s | None => false end && (length (o_hdr s) =? 8)%nat && pk_eqb (o_pk s) [(1, zeros 16)])) &&
  match e with
  | ENma _ wn tow _ _ =>
    let T := subframe_time wn tow in
    (604800 * 1200 + 3600 <=? T) && (T <? 604800 * 1201) &&
    (negb (beqb (tesla stamp 0 alp0 96 1 (o_key s) T) (o_keyp s)) ||
     beqb (tesla stamp 0 alp0 96 (Z.to_nat ((T - 30 - (604800 * 1200 + 3600)) / 30 + 1)) (o_keyp s) (T - 30)) (ks 3570))
  | _ => true
  end.

(** ---- DSM blocks ---- *)
Definition feed {C} (l : list bits) (s : ost C) : ost C * option bool :=
  fold_left (fun sr hk => decode_hk hk (fst sr)) l (s, Some false).
Definition blk (did : Z) (d : bits) (b : nat) : bits := hkroot did (Z.of_nat b) (slice d (104 * b) 104).
Definition hdr1 : bits := bitsof 2 1 ++ bitsof 2 1 ++ bitsof 3 1 ++ [false].
Definition blk1 (did : Z) (d : bits) (b : nat) : bits := hdr1 ++ bitsof 4 did ++ bitsof 4 (Z.of_nat b) ++ slice d (104 * b) 104.
(** ---- DSM-PKR with an ECDSA P-256 key of identifier 2, leaf 5 of the tree ---- *)
Definition key_new : bits := bitsof 264 (7 ^ 90).
Definition leaf : bits := bitsof 4 1 ++ bitsof 4 2 ++ key_new.
Definition node (j : nat) : bits := bitsof 256 (Z.of_nat j * 3 ^ 150 + 5 ^ 100).
Definition root_s : bits := climb stamp 0 (fun j => node j) 4 0 5 (hs leaf).
Definition pkr_s : bits :=
  bitsof 4 7 ++ bitsof 4 5 ++ concat (map node (seq 0 4)) ++ leaf ++ firstn 48 (hs (root_s ++ leaf)).
