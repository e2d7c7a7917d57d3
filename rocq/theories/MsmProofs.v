(** Lemmas about multiple signal messages. *)
From Verif Require Import SatModel SatSpec TimeModel TimeSpec TimeProofs TimeLeap SigModel BitModel BitProofs CssrState CssrSpec CssrFacts
  RtcmFrame RtcmFrameSpec RtcmFrameProofs RtcmSsr RtcmSsrSpec RtcmSsrProofs MsmModel MsmSpec Base BaseFacts.
From Coq Require Import ZifyBool ZifyNat.
Open Scope Z_scope.
Notation length := List.length.

(* ---------- masks ---------- *)
Lemma sel_filter (f : Z -> bool) l : sel (map f l) l = filter f l.
Proof.
  induction l as [|x l IH]; [reflexivity|]. cbn [map]. unfold sel in *. cbn [combine filter fst].
  destruct (f x); cbn [map snd]; now rewrite IH.
Qed.
Lemma zs_sorted o n : StronglySorted Z.lt (zs o n).
Proof.
  unfold zs. generalize 0%nat as k. induction n as [|n IH]; intros k; cbn [seq map]; constructor; [apply IH|].
  apply Forall_forall. intros x Hx. apply in_map_iff in Hx as (j & <- & Hj). apply in_seq in Hj. lia.
Qed.
Lemma filter_sorted (f : Z -> bool) l : StronglySorted Z.lt l -> StronglySorted Z.lt (filter f l).
Proof.
  induction 1 as [|x l Hs IH Hx]; cbn [filter]; [constructor|]. destruct (f x); [|exact IH].
  constructor; [exact IH|]. apply Forall_forall. intros y Hy. apply filter_In in Hy as [Hy _]. rewrite Forall_forall in Hx. auto.
Qed.
Lemma mask_bits_length o n l : length (mask_bits o n l) = n.
Proof. unfold mask_bits. now rewrite map_length, seq_length. Qed.
Lemma decode_mask_bits o n l : StronglySorted Z.lt l -> Forall (fun k => o <= k < o + Z.of_nat n) l ->
  fst (decode_mask (bval (mask_bits o n l)) n o) = l.
Proof.
  intros Hs Hr. rewrite <- (mask_bits_length o n l) at 2. rewrite decode_mask_bval. cbn [fst]. rewrite mask_bits_length.
  assert (E : mask_bits o n l = map (fun z => existsb (Z.eqb z) l) (zs o n)).
  { unfold mask_bits, zs. rewrite map_map. reflexivity. }
  rewrite E, sel_filter. apply ssorted_ext; [apply filter_sorted, zs_sorted|exact Hs|].
  intros p. rewrite filter_In. split.
  - intros [_ H]. apply existsb_exists in H as (q & Hq & Hpq). apply Z.eqb_eq in Hpq. now subst.
  - intros H. split; [|apply existsb_exists; exists p; split; [exact H|lia]].
    rewrite Forall_forall in Hr. specialize (Hr p H). unfold zs. apply in_map_iff.
    exists (Z.to_nat (p - o)). split; [lia|]. apply in_seq. lia.
Qed.
Lemma sel_nth (m : bits) (l pre : list Z) : length m = length l ->
  map (fun k => nth (Z.to_nat k) (pre ++ l) 0) (sel m (zs (Z.of_nat (length pre)) (length m))) = sel m l.
Proof.
  revert l pre. induction m as [|b m IH]; intros [|x l] pre H; try discriminate H; [reflexivity|].
  injection H as H. unfold zs. cbn [length seq map]. rewrite <- seq_shift, map_map.
  assert (E : map (fun k => Z.of_nat (length pre) + Z.of_nat (S k)) (seq 0 (length m)) = zs (Z.of_nat (length (pre ++ [x]))) (length m)).
  { unfold zs. apply map_ext. intros k. rewrite app_length. cbn [length]. lia. }
  rewrite E. specialize (IH l (pre ++ [x]) H). rewrite <- app_assoc in IH. cbn [app] in IH.
  unfold sel in *. cbn [combine filter fst]. destruct b; cbn [map snd]; rewrite IH; [|reflexivity].
  f_equal. rewrite app_nth2 by lia. replace (Z.to_nat _ - length pre)%nat with 0%nat by lia. reflexivity.
Qed.

(* ---------- columns ---------- *)
Lemma column_length {A} (f : A -> bits) w l : (forall a, In a l -> length (f a) = w) -> length (column f l) = (w * length l)%nat.
Proof.
  unfold column. induction l as [|a l IH]; intros H; cbn [flat_map length]; [lia|].
  rewrite app_length, H, IH by (intros; try apply H; cbn; auto). lia.
Qed.
Lemma col_at {A B} (f : A -> bits) (g : A -> B) (rd : nat -> option B) w msg : forall l i,
  (forall a i, In a l -> At msg i (f a) -> rd i = Some (g a)) -> (forall a, In a l -> length (f a) = w) ->
  At msg i (column f l) -> col rd w (length l) i = Some (map g l, (i + w * length l)%nat).
Proof.
  unfold column. induction l as [|a l IH]; intros i Hr Hw HA.
  - cbn. do 2 f_equal. lia.
  - cbn [flat_map length col map] in *. apply At_app in HA as [A1 A2]. rewrite (Hr a i) by (cbn; auto). cbn [bind].
    rewrite Hw in A2 by (cbn; auto). rewrite IH; [cbn [bind]; do 2 f_equal; lia| | |exact A2]; intros; [apply Hr|apply Hw]; cbn; auto.
Qed.
Definition yes (o : option cell) : bool := match o with Some _ => true | None => false end.

Lemma cell_masks_ok msg sig : sig <> [] -> forall vs i,
  Forall (fun v => length (v_cells v) = length sig) vs ->
  At msg i (column (fun v => map yes (v_cells v)) vs) ->
  cell_masks msg sig (length vs) i = Some (map (fun v => sel (map yes (v_cells v)) sig) vs, (i + length sig * length vs)%nat).
Proof.
  intros Hn. unfold column. induction vs as [|v vs IH]; intros i Hl HA.
  - cbn. do 2 f_equal. lia.
  - inversion Hl as [|? ? Hv Hl']; subst. cbn [flat_map length cell_masks map] in *. apply At_app in HA as [A1 A2].
    destruct sig as [|s0 sig'] eqn:Es; [now destruct Hn|]. rewrite <- Es in *.
    replace (0 <? Z.of_nat (length sig)) with true by (subst; cbn [length]; lia). cbn [guard bind].
    rewrite map_length in A2. rewrite Hv in A2.
    rewrite <- Hv at 1. rewrite <- (map_length yes (v_cells v)) at 1. rewrite (getu_at _ _ _ A1). cbn [bind].
    rewrite IH by (auto). cbn [bind]. do 2 f_equal; [|lia]. f_equal.
    rewrite <- Hv at 1. rewrite <- (map_length yes (v_cells v)) at 1. rewrite decode_mask_bval. cbn [fst].
    apply (sel_nth (map yes (v_cells v)) sig []). now rewrite map_length.
Qed.

(** the range the decoder uses *)
Definition rc (msm : Z) (v : sv) : Z :=
  match v_ms v with
  | None => 0
  | Some m => if msm <? 4 then m * 2 ^ 31 else if m =? 0 then 0 else m * 2 ^ 31 + v_frac v * 2 ^ 21
  end.
Lemma rc_rough msm v : range_known msm v -> rough msm v = Some (rc msm v).
Proof.
  intros (m & H & K). unfold rough, rc. rewrite H. destruct (Z.ltb_spec msm 4); [reflexivity|].
  now replace (m =? 0) with false by lia.
Qed.
Definition exc (msm : Z) (v : sv) : Z := if (msm =? 5) || (msm =? 7) then v_ex v else 0.

Lemma fracs_ok msg : forall vs i,
  Forall (fun v => ubits 10 (v_frac v)) vs -> Forall (fun v => forall m, v_ms v = Some m -> 0 <= m < 255) vs ->
  At msg i (column (fun v => bitsof 10 (v_frac v)) vs) ->
  fracs msg (map (fun v => match v_ms v with Some m => m * 2 ^ 31 | None => 0 end) vs) i =
    Some (map (rc 4) vs, (i + 10 * length vs)%nat).
Proof.
  unfold column. induction vs as [|v vs IH]; intros i Hf Hm HA; [cbn; do 2 f_equal; lia|].
  inversion Hf; inversion Hm; subst. cbn [flat_map map fracs length] in *. apply At_app in HA as [A1 A2].
  rewrite bitsof_length in A2. rewrite (getu_bits msg i 10 (v_frac v)) by assumption. cbn [bind].
  rewrite IH by auto.
  assert (E : (if (match v_ms v with Some m => m * 2 ^ 31 | None => 0 end) =? 0
               then Some (match v_ms v with Some m => m * 2 ^ 31 | None => 0 end)
               else Some ((match v_ms v with Some m => m * 2 ^ 31 | None => 0 end) + v_frac v * 2 ^ 21)) = Some (rc 4 v)).
  { unfold rc. destruct (v_ms v) as [m|]; [|reflexivity]. change (4 <? 4) with false. cbv iota.
    destruct (Z.eqb_spec m 0) as [->|Hn]; [reflexivity|]. replace (m * 2 ^ 31 =? 0) with false by lia. reflexivity. }
  rewrite E. cbn [bind]. do 2 f_equal. lia.
Qed.
Lemma unum_get msg i n y : match y with Some m => 0 <= m < 2 ^ Z.of_nat n - 1 | None => True end ->
  At msg i (unum n y) -> getu msg i n = Some (match y with Some m => m | None => 2 ^ Z.of_nat n - 1 end).
Proof.
  intros H HA. destruct y as [m|]; unfold unum in HA; [apply getu_bits; auto; lia|].
  rewrite <- (repeat_length true n) at 1. rewrite (getu_at _ _ _ HA). f_equal. clear.
  induction n as [|n IH]; [reflexivity|]. cbn [repeat bval]. rewrite repeat_length, IH, pow2_S. lia.
Qed.
Lemma rc_ge4 msm : 4 <= msm -> rc msm = rc 4.
Proof. intros H. unfold rc. replace (msm <? 4) with false by lia. reflexivity. Qed.

Lemma sat_part_ok msg msm s n vs i : 1 <= msm <= 7 -> Forall (sv_ok msm s n) vs ->
  At msg i (sat_fields msm vs) ->
  sat_part msg msm (length vs) i = Some (map (rc msm) vs, map (exc msm) vs, (i + length (sat_fields msm vs))%nat).
Proof.
  intros Hm Hok HA. rewrite Forall_forall in Hok.
  assert (Hfr : Forall (fun v => ubits 10 (v_frac v)) vs) by (apply Forall_forall; intros v Hv; apply (Hok v Hv)).
  assert (Hlow : msm <= 3 -> sat_fields msm vs = column (fun v => unum 10 (v_ms v)) vs).
  { intros. assert (msm = 1 \/ msm = 2 \/ msm = 3) as [-> | [-> | ->]] by lia; reflexivity. }
  assert (E0 : forall l, repeat 0 (length l) = map (fun _ : sv => 0) l).
  { induction l as [|a l IH]; cbn; [reflexivity|now rewrite IH]. }
  unfold sat_part.
  destruct (Z.leb_spec msm 3) as [L|L].
  - replace (1 <=? msm) with true by lia. cbn [andb]. rewrite Hlow in * by lia.
    rewrite (col_at (fun v => unum 10 (v_ms v)) (fun v => match v_ms v with Some m => m | None => 1023 end) _ 10 msg vs i); auto.
    + cbn [bind]. rewrite map_map. rewrite (column_length _ 10).
      * rewrite E0. apply (f_equal Some), f_equal2; [apply f_equal2|reflexivity]; apply map_ext_in; intros v Hv.
        -- unfold rc. destruct (Hok v Hv) as (_ & _ & _ & K & _). destruct (v_ms v) as [m|]; [|reflexivity].
           specialize (K m eq_refl). replace (msm <? 4) with true in * by lia. now replace (m =? 2 ^ 10 - 1) with false by lia.
        -- unfold exc. now replace ((msm =? 5) || (msm =? 7)) with false by lia.
      * intros v _. unfold unum. destruct (v_ms v); [apply bitsof_length|apply repeat_length].
    + intros v j Hv HAv. apply (unum_get msg j 10); auto. destruct (Hok v Hv) as (_ & _ & _ & K & _).
      destruct (v_ms v) as [m|]; [|exact I]. specialize (K m eq_refl). replace (msm <? 4) with true in * by lia. cbn. lia.
    + intros v _. unfold unum. destruct (v_ms v); [apply bitsof_length|apply repeat_length].
  - rewrite andb_false_r.
    assert (Hms : forall v, In v vs -> forall m, v_ms v = Some m -> 0 <= m < 255).
    { intros v Hv m Em. destruct (Hok v Hv) as (_ & _ & _ & K & _). specialize (K m Em). now replace (msm <? 4) with false in K by lia. }
    assert (C1 : forall j, At msg j (column (fun v => unum 8 (v_ms v)) vs) ->
      col (fun i => getu msg i 8) 8 (length vs) j = Some (map (fun v => match v_ms v with Some m => m | None => 255 end) vs, (j + 8 * length vs)%nat)).
    { intros j Hj. apply (col_at (fun v => unum 8 (v_ms v))) with (msg := msg); auto.
      - intros v k Hv Hk. apply (unum_get msg k 8); auto. pose proof (Hms v Hv). destruct (v_ms v) as [m|]; [|exact I].
        specialize (H m eq_refl). cbn. lia.
      - intros v _. unfold unum. destruct (v_ms v); [apply bitsof_length|apply repeat_length]. }
    assert (C2 : map (fun v => if v =? 2 ^ 8 - 1 then 0 else v * 2 ^ 31) (map (fun v => match v_ms v with Some m => m | None => 255 end) vs) =
                 map (fun v => match v_ms v with Some m => m * 2 ^ 31 | None => 0 end) vs).
    { rewrite map_map. apply map_ext_in. intros v Hv. pose proof (Hms v Hv). destruct (v_ms v) as [m|]; [|reflexivity].
      specialize (H m eq_refl). now replace (m =? 2 ^ 8 - 1) with false by lia. }
    assert (C3 : forall j, At msg j (column (fun v => bitsof 4 (v_ex v)) vs) ->
      col (fun i => getu msg i 4) 4 (length vs) j = Some (map v_ex vs, (j + 4 * length vs)%nat)).
    { intros j Hj. apply (col_at (fun v => bitsof 4 (v_ex v))) with (msg := msg); [| |exact Hj].
      - intros v k Hv Hk. apply getu_bits; [exact Hk|]. apply (Hok v Hv).
      - intros. apply bitsof_length. }
    assert (C4 : forall j, At msg j (column (fun v => field 14 (v_rate v)) vs) ->
      col (fun i => gets msg i 14) 14 (length vs) j = Some (map (fun v => ival (v_rate v) 14) vs, (j + 14 * length vs)%nat)).
    { intros j Hj. apply (col_at (fun v => field 14 (v_rate v))) with (msg := msg); [| |exact Hj].
      - intros v k Hv Hk. apply gets_field; [lia| |exact Hk]. apply (Hok v Hv).
      - intros v _. rewrite field_ival by lia. apply bitsof_length. }
    assert (L1 : length (column (fun v => unum 8 (v_ms v)) vs) = (8 * length vs)%nat).
    { apply column_length. intros v _. unfold unum. destruct (v_ms v); [apply bitsof_length|apply repeat_length]. }
    assert (L2 : length (column (fun v => bitsof 10 (v_frac v)) vs) = (10 * length vs)%nat).
    { apply column_length. intros. apply bitsof_length. }
    assert (L3 : length (column (fun v => bitsof 4 (v_ex v)) vs) = (4 * length vs)%nat).
    { apply column_length. intros. apply bitsof_length. }
    assert (L4 : length (column (fun v => field 14 (v_rate v)) vs) = (14 * length vs)%nat).
    { apply column_length. intros v _. rewrite field_ival by lia. apply bitsof_length. }
    assert (Hms' : Forall (fun v => forall m, v_ms v = Some m -> 0 <= m < 255) vs) by (apply Forall_forall; exact Hms).
    rewrite (rc_ge4 msm) by lia.
    assert (D : (msm = 4 \/ msm = 6) \/ (msm = 5 \/ msm = 7)) by lia. destruct D as [D|D].
    + assert (Es : sat_fields msm vs = column (fun v => unum 8 (v_ms v)) vs ++ column (fun v => bitsof 10 (v_frac v)) vs) by (destruct D; subst; reflexivity).
      rewrite Es in *. apply At_app in HA as [A1 A2]. rewrite L1 in A2.
      replace ((msm =? 5) || (msm =? 7)) with false by lia. rewrite C1 by exact A1. cbn [bind]. rewrite C2.
      rewrite fracs_ok by auto. cbn [bind]. rewrite app_length, L1, L2.
      rewrite E0. apply (f_equal Some), f_equal2; [apply f_equal2; [reflexivity|]|lia]. apply map_ext. intros v. unfold exc. now replace ((msm =? 5) || (msm =? 7)) with false by lia.
    + assert (Es : sat_fields msm vs = column (fun v => unum 8 (v_ms v)) vs ++ column (fun v => bitsof 4 (v_ex v)) vs ++
         column (fun v => bitsof 10 (v_frac v)) vs ++ column (fun v => field 14 (v_rate v)) vs) by (destruct D; subst; reflexivity).
      rewrite Es in *. apply At_app in HA as [A1 A2]. apply At_app in A2 as [A2 A3]. apply At_app in A3 as [A3 A4].
      rewrite L1 in *. rewrite L3 in *. rewrite L2 in *.
      replace ((msm =? 5) || (msm =? 7)) with true by lia. rewrite C1 by exact A1. cbn [bind]. rewrite C2.
      rewrite C3 by exact A2.
      cbn [bind]. rewrite fracs_ok by auto. cbn [bind].
      rewrite C4 by exact A4.
      cbn [bind]. rewrite !app_length, L1, L2, L3, L4. apply (f_equal Some), f_equal2; [apply f_equal2; [reflexivity|]|lia].
      apply map_ext. intros v. unfold exc. now replace ((msm =? 5) || (msm =? 7)) with true by lia.
Qed.

Lemma scol msg n (g : cell -> option Z) cs i : (1 <= n)%nat -> Forall (fun c => fits n (g c)) cs ->
  At msg i (column (fun c => field n (g c)) cs) ->
  col (fun i => gets msg i n) n (length cs) i = Some (map (fun c => ival (g c) n) cs, (i + n * length cs)%nat).
Proof.
  intros Hn Hf HA. rewrite Forall_forall in Hf. apply (col_at (fun c => field n (g c))) with (msg := msg); [| |exact HA].
  - intros c j Hc Hj. apply gets_field; auto.
  - intros c _. rewrite field_ival by lia. apply bitsof_length.
Qed.
Lemma ucol msg n (g : cell -> Z) cs i : Forall (fun c => ubits n (g c)) cs ->
  At msg i (column (fun c => bitsof n (g c)) cs) ->
  col (fun i => getu msg i n) n (length cs) i = Some (map g cs, (i + n * length cs)%nat).
Proof.
  intros Hf HA. rewrite Forall_forall in Hf. apply (col_at (fun c => bitsof n (g c))) with (msg := msg); [| |exact HA].
  - intros c j Hc Hj. apply getu_bits; auto. now apply Hf.
  - intros c _. apply bitsof_length.
Qed.
Lemma scol_len n (g : cell -> option Z) cs : (1 <= n)%nat -> length (column (fun c => field n (g c)) cs) = (n * length cs)%nat.
Proof. intros Hn. apply column_length. intros c _. rewrite field_ival by lia. apply bitsof_length. Qed.
Lemma ucol_len n (g : cell -> Z) cs : length (column (fun c => bitsof n (g c)) cs) = (n * length cs)%nat.
Proof. apply column_length. intros c _. apply bitsof_length. Qed.
Lemma column_nil {A} (l : list A) : column (fun _ => []) l = [].
Proof. unfold column. induction l; auto. Qed.

(** the columns as the decoder keeps them *)
Definition f_pr (msm : Z) (c : cell) : option Z := if msm =? 2 then None else scale (if msm <? 6 then 2 ^ 7 else 2 ^ 2) (c_pr c).
Definition f_cp (msm : Z) (c : cell) : option Z := if 1 <? msm then scale (if msm <? 6 then 2 ^ 2 else 1) (c_cp c) else None.
Definition f_ll (msm : Z) (c : cell) : Z := if 1 <? msm then c_lock c else 0.
Definition f_hf (msm : Z) (c : cell) : Z := if 1 <? msm then c_half c else 0.
Definition f_cn (msm : Z) (c : cell) : Z := if 3 <? msm then (if msm <? 6 then 16 else 1) * c_cnr c else 0.
Lemma repeat_map {A B} (b : B) (l : list A) : repeat b (length l) = map (fun _ => b) l.
Proof. induction l as [|a l IH]; cbn; [reflexivity|now rewrite IH]. Qed.

Ltac zconst :=
  repeat match goal with
  | |- context [?a <? ?b] => let r := eval vm_compute in (a <? b) in match r with true => idtac | false => idtac end; change (a <? b) with r
  | |- context [?a =? ?b] => let r := eval vm_compute in (a =? b) in match r with true => idtac | false => idtac end; change (a =? b) with r
  | |- context [?a <=? ?b] => let r := eval vm_compute in (a <=? b) in match r with true => idtac | false => idtac end; change (a <=? b) with r
  end; cbn [orb andb]; cbv iota.

Lemma sval_cols n k (g : cell -> option Z) cs : Forall (fun c => fits n (g c)) cs ->
  map (fun u => scale k (sval u n)) (map (fun c => ival (g c) n) cs) = map (fun c => scale k (g c)) cs.
Proof.
  intros H. rewrite Forall_forall in H. rewrite map_map. apply map_ext_in. intros c Hc. now rewrite sval_ival by auto.
Qed.
Lemma column0 {A} (g : A -> Z) l : column (fun c => bitsof 0 (g c)) l = [].
Proof. apply column_nil. Qed.
Ltac fok cs Hok := apply Forall_forall; let c := fresh in let Hc := fresh in intros c Hc;
  destruct (Hok c Hc) as (? & ? & ? & ? & ? & ?); auto; match goal with H : _ -> ?x |- ?x => apply H; discriminate end.
Ltac cone msg cs Hok A n g sg :=
  lazymatch sg with
  | true => rewrite (scol msg n g cs _ ltac:(lia) ltac:(fok cs Hok) A); cbn [bind]; try rewrite (sval_cols n _ g cs ltac:(fok cs Hok))
  | false => rewrite (ucol msg n g cs _ ltac:(fok cs Hok) A); cbn [bind]
  end.
Ltac cstep msg cs Hok :=
  match goal with
  | A : At msg _ (column (fun c => field ?n (@?g c)) cs ++ _) |- _ =>
      let A1 := fresh in apply At_app in A as [A1 A]; rewrite scol_len in A by lia; cone msg cs Hok A1 n g true
  | A : At msg _ (column (fun c => bitsof ?n (@?g c)) cs ++ _) |- _ =>
      let A1 := fresh in apply At_app in A as [A1 A]; rewrite ucol_len in A; cone msg cs Hok A1 n g false
  | A : At msg _ (column (fun c => field ?n (@?g c)) cs) |- _ => cone msg cs Hok A n g true; clear A
  | A : At msg _ (column (fun c => bitsof ?n (@?g c)) cs) |- _ => cone msg cs Hok A n g false; clear A
  end.
Lemma sig_part_ok msg msm cs i : 1 <= msm <= 7 -> Forall (cell_ok msm) cs ->
  At msg i (sig_fields msm cs) ->
  sig_part msg msm (length cs) i =
    Some (COLS (map (f_pr msm) cs) (map (f_cp msm) cs) (map (f_ll msm) cs) (map (f_hf msm) cs) (map (f_cn msm) cs),
          (i + length (sig_fields msm cs))%nat).
Proof.
  intros Hm Hok HA. rewrite Forall_forall in Hok.
  assert (D : msm = 1 \/ msm = 2 \/ msm = 3 \/ msm = 4 \/ msm = 5 \/ msm = 6 \/ msm = 7) by lia.
  destruct D as [-> | [-> | [-> | [-> | [-> | [-> | ->]]]]]];
  unfold sig_fields, sig_part, cell_ok, sfield, sbits, f_pr, f_cp, f_ll, f_hf, f_cn in *; unfold widths in *; cbv iota in HA, Hok |- *;
  zconst; rewrite ?column0, ?column_nil, ?app_nil_r, ?app_nil_l in *; rewrite ?repeat_map; zconst;
  cbn [bind]; repeat (cstep msg cs Hok; cbn [bind]); rewrite ?app_length, ?scol_len, ?ucol_len by lia; rewrite ?map_map;
  try reflexivity; (apply (f_equal Some), f_equal2; [reflexivity|lia]).
Qed.

(* ---------- rows ---------- *)
Lemma index_at s pre suf : ~ In s pre -> lindex s (pre ++ s :: suf) = Some (length pre).
Proof.
  induction pre as [|x pre IH]; intros H; cbn [app lindex length].
  - now rewrite Z.eqb_refl.
  - destruct (Z.eqb_spec s x) as [->|_]; [exfalso; apply H; now left|]. rewrite IH by (intros K; apply H; now right). reflexivity.
Qed.
Lemma lset_at {A} (a b : list A) x v k : length a = k -> lset (a ++ x :: b) k v = a ++ v :: b.
Proof.
  intros <-. unfold lset. rewrite firstn_app, Nat.sub_diag, firstn_all. cbn [firstn]. rewrite app_nil_r.
  rewrite skipn_app. replace (S (length a) - length a)%nat with 1%nat by lia.
  rewrite skipn_all2 by lia. reflexivity.
Qed.
Lemma nth_error_mid {A} (a b : list A) x k : length a = k -> nth_error (a ++ x :: b) k = Some x.
Proof. intros <-. rewrite nth_error_app2, Nat.sub_diag by lia. reflexivity. Qed.

Section Fill.
Context (msm : Z) (sys : gnss) (sig : list Z) (qs : list rsig) (fcn r : Z) (all : list cell).
Definition thecols : cols := COLS (map (f_pr msm) all) (map (f_cp msm) all) (map (f_ll msm) all) (map (f_hf msm) all) (map (f_cn msm) all).
Definition chan : option Z := match sys with GLO => Some fcn | _ => None end.
Definition g_P (o : option cell) : option Z := match o with None => Some 0 | Some c => oadd (f_pr msm c) r end.
Definition g_L (q : rsig) (o : option cell) : option Z :=
  match o with None => Some 0 | Some c => match frequency q chan with Some f => scale f (oadd (f_cp msm c) r) | None => None end end.
Definition g_S (o : option cell) : Z := match o with None => 0 | Some c => f_cn msm c end.
Definition g_ll (o : option cell) : Z := match o with None => 0 | Some c => f_ll msm c end.
Definition g_hf (o : option cell) : Z := match o with None => 0 | Some c => f_hf msm c end.
Definition pres (l : list (option cell)) : list cell := flat_map (fun o => match o with Some c => [c] | None => [] end) l.

Lemma fill_ok : NoDup sig -> forall cells suf qsuf pre qpre A B o dP dL dS dl dh,
  sig = pre ++ suf -> qs = qpre ++ qsuf -> length qpre = length pre ->
  length cells = length suf ->
  Forall2 (fun q o => match o with Some _ => frequency q chan <> None | None => True end) qsuf cells ->
  all = A ++ pres cells ++ B -> o = length A ->
  length dP = length pre -> length dL = length pre -> length dS = length pre -> length dl = length pre -> length dh = length pre ->
  fill sys sig qs fcn r thecols (sel (map yes cells) suf) o
    (ROW (dP ++ repeat (Some 0) (length suf)) (dL ++ repeat (Some 0) (length suf)) (dS ++ repeat 0 (length suf))
         (dl ++ repeat 0 (length suf)) (dh ++ repeat 0 (length suf))) =
  Some (ROW (dP ++ map g_P cells) (dL ++ map2 g_L qsuf cells) (dS ++ map g_S cells) (dl ++ map g_ll cells) (dh ++ map g_hf cells)).
Proof.
  intros Hnd. induction cells as [|x cells IH]; intros suf qsuf pre qpre A B o dP dL dS dl dh Hs Hq Hlq Hl HF Hall Ho H1 H2 H3 H4 H5.
  - destruct suf; [|discriminate Hl]. inversion HF; subst. reflexivity.
  - destruct suf as [|s suf]; [discriminate Hl|]. injection Hl as Hl. inversion HF as [|q ? qsuf' ? Hx HF']; subst qsuf. subst.
    assert (G : forall dP' dL' dS' dl' dh' A' o', all = A' ++ pres cells ++ B -> o' = length A' ->
      length dP' = S (length pre) -> length dL' = S (length pre) -> length dS' = S (length pre) -> length dl' = S (length pre) -> length dh' = S (length pre) ->
      fill sys (pre ++ s :: suf) (qpre ++ q :: qsuf') fcn r thecols (sel (map yes cells) suf) o'
        (ROW (dP' ++ repeat (Some 0) (length suf)) (dL' ++ repeat (Some 0) (length suf)) (dS' ++ repeat 0 (length suf))
             (dl' ++ repeat 0 (length suf)) (dh' ++ repeat 0 (length suf))) =
      Some (ROW (dP' ++ map g_P cells) (dL' ++ map2 g_L qsuf' cells) (dS' ++ map g_S cells) (dl' ++ map g_ll cells) (dh' ++ map g_hf cells))).
    { intros. apply (IH suf qsuf' (pre ++ [s]) (qpre ++ [q]) A' B); auto; rewrite ?app_length, <- ?app_assoc; cbn [length app]; auto; lia. }
    destruct x as [c|].
    + change (sel (map yes (Some c :: cells)) (s :: suf)) with (s :: sel (map yes cells) suf).
      change (pres (Some c :: cells)) with (c :: pres cells) in Hall. cbn [app] in Hall.
      cbn [fill].
      rewrite index_at by (apply NoDup_remove_2 in Hnd; intros K; apply Hnd, in_app_iff; now left).
      cbn [bind]. rewrite nth_error_mid by lia. cbn [bind]. unfold chan in Hx.
      destruct (frequency q (match sys with GLO => Some fcn | _ => None end)) as [f|] eqn:Ef; [|now destruct Hx]. cbn [bind].
      assert (N : forall T (f : cell -> T), nth_error (map f all) (length A) = Some (f c)).
      { intros T f0. rewrite Hall, map_app. cbn [map]. apply nth_error_mid. now rewrite map_length. }
      change (k_pr thecols) with (map (f_pr msm) all). change (k_cp thecols) with (map (f_cp msm) all).
      change (k_lock thecols) with (map (f_ll msm) all). change (k_half thecols) with (map (f_hf msm) all).
      change (k_cnr thecols) with (map (f_cn msm) all). rewrite !N. cbn [bind w_P w_L w_S w_ll w_hf length repeat].
      rewrite !lset_at by auto.
      specialize (G (dP ++ [oadd (f_pr msm c) r]) (dL ++ [scale f (oadd (f_cp msm c) r)]) (dS ++ [f_cn msm c]) (dl ++ [f_ll msm c]) (dh ++ [f_hf msm c])
                    (A ++ [c]) (S (length A))).
      rewrite <- !app_assoc in G. cbn [app] in G. rewrite G; rewrite ?app_length; cbn [length]; auto; try lia.
      cbn [map map2 g_P g_S g_ll g_hf]. unfold g_L at 2. unfold chan. rewrite Ef. reflexivity.
    + change (sel (map yes (None :: cells)) (s :: suf)) with (sel (map yes cells) suf).
      specialize (G (dP ++ [Some 0]) (dL ++ [Some 0]) (dS ++ [0]) (dl ++ [0]) (dh ++ [0]) A (length A)).
      rewrite <- !app_assoc in G. cbn [app] in G. cbn [length repeat]. rewrite G; rewrite ?app_length; cbn [length]; auto; try lia.
Qed.
End Fill.

Lemma lli_zero sig sig_n prev hf : forall ll j out, (j + length ll <= length sig)%nat ->
  lli_loop sig sig_n prev hf j ll out = Some out.
Proof.
  induction ll as [|x ll IH]; intros j out H; [reflexivity|]. cbn [lli_loop length] in *.
  destruct (nth_error sig j) eqn:E; [|apply nth_error_None in E; lia]. cbn [bind].
  assert (F : forall z l, existsb (num_is_list z) l = false) by (intros z0 l; induction l; auto).
  rewrite F. cbn [negb bind]. apply IH. lia.
Qed.
Definition fcn_of (msm : Z) (s : gnss) (v : sv) : Z := match s with GLO => if exc msm v <=? 13 then exc msm v - 7 else 0 | _ => 0 end.
Definition lock_row (msm : Z) (v : sv) : list Z := map (g_ll msm) (v_cells v).
Definition locks (msm : Z) (s : gnss) (vs : list sv) (l : dict Z (list Z)) : dict Z (list Z) :=
  fold_left (fun l v => zset (prn2sat s (v_prn v)) (lock_row msm v) l) vs l.

Lemma sel_present v (sig : list Z) : length (v_cells v) = length sig -> length (sel (map yes (v_cells v)) sig) = length (present v).
Proof.
  unfold present. revert sig. induction (v_cells v) as [|[c|] l IH]; intros [|x sg] H; try discriminate H; auto; injection H as H.
  - change (sel (map yes (Some c :: l)) (x :: sg)) with (x :: sel (map yes l) sg). cbn. now rewrite (IH sg H).
  - change (sel (map yes (None :: l)) (x :: sg)) with (sel (map yes l) sg). cbn. now apply IH.
Qed.
Lemma rows_ok msm s sig qs all : NoDup sig -> length qs = length sig -> forall vs A lock ob sig_n,
  Forall (fun v => length (v_cells v) = length sig) vs ->
  Forall (fun v => Forall2 (fun q o => match o with Some _ => frequency q (chan s (fcn_of msm s v)) <> None | None => True end) qs (v_cells v)) vs ->
  all = A ++ flat_map present vs ->
  rows s sig qs sig_n (thecols msm all) (map v_prn vs) (map (fun v => sel (map yes (v_cells v)) sig) vs) (map (rc msm) vs) (map (exc msm) vs)
       (length A) lock ob =
  Some (locks msm s vs lock,
        MOBS (o_time ob) (o_sig ob) (o_sat ob ++ map (fun v => prn2sat s (v_prn v)) vs)
             (o_P ob ++ map (fun v => map (g_P msm (rc msm v)) (v_cells v)) vs)
             (o_L ob ++ map (fun v => map2 (g_L msm s (fcn_of msm s v) (rc msm v)) qs (v_cells v)) vs)
             (o_S ob ++ map (fun v => map (g_S msm) (v_cells v)) vs)
             (o_lli ob ++ map (fun _ => repeat 0 (length sig)) vs)).
Proof.
  intros Hnd Hq. induction vs as [|v vs IH]; intros A lock ob sig_n Hl HF Hall.
  - cbn. rewrite !app_nil_r. now destruct ob.
  - inversion Hl as [|? ? Hv Hl']; inversion HF as [|? ? Hf HF']; subst. cbn [map rows flat_map] in *.
    change (match s with GLO => if exc msm v <=? 13 then exc msm v - 7 else 0 | _ => 0 end) with (fcn_of msm s v).
    pose proof (fill_ok msm s sig qs (fcn_of msm s v) (rc msm v) (A ++ present v ++ flat_map present vs) Hnd (v_cells v) sig qs [] [] A (flat_map present vs)
               (length A) [] [] [] [] [] eq_refl eq_refl eq_refl Hv Hf eq_refl eq_refl eq_refl eq_refl eq_refl eq_refl eq_refl) as Fl.
    cbn [app] in Fl. unfold row0. rewrite Fl.
    cbn [bind w_hf w_ll app].
    assert (L : (match zget (prn2sat s (v_prn v)) lock with
                 | Some prev => lli_loop sig sig_n prev (map (g_hf msm) (v_cells v)) 0 (map (g_ll msm) (v_cells v)) (repeat 0 (length sig))
                 | None => Some (repeat 0 (length sig)) end) = Some (repeat 0 (length sig))).
    { destruct (zget _ _); [|reflexivity]. apply lli_zero. rewrite map_length. lia. }
    rewrite L. cbn [bind].
    assert (E : (length A + length (sel (map yes (v_cells v)) sig))%nat = length (A ++ present v)).
    { rewrite app_length. f_equal. now apply sel_present. }
    rewrite E. rewrite (IH (A ++ present v)) by (auto; now rewrite <- app_assoc).
    unfold obs_add. cbn [o_time o_sig o_sat o_P o_L o_S o_lli w_P w_L w_S]. rewrite <- !app_assoc. cbn [app]. reflexivity.
Qed.

(* ---------- frequencies ---------- *)
Lemma freq_other q k : rsys q <> GLO -> frequency q None = frequency q k.
Proof. unfold frequency. destruct (rsys q); try reflexivity. intros H. now destruct H. Qed.
Lemma freq_glo_some q a b : frequency q (Some a) <> None -> frequency q (Some b) <> None.
Proof.
  unfold frequency. destruct (rsys q); auto.
  destruct (rnum q ÷ 100) as [|p|p]; auto; repeat (match goal with |- context [match ?p with xI _ => _ | xO _ => _ | xH => _ end] => destruct p end; auto); try discriminate.
Qed.
Lemma freq_chan s fcn q : rsys q = s -> frequency q (Some 0) <> None -> frequency q (chan s fcn) <> None.
Proof.
  intros Hs H. unfold chan. destruct (gnss_eqb s GLO) eqn:E.
  - destruct s; try discriminate E. now apply freq_glo_some with (a := 0).
  - destruct s; try discriminate E; rewrite (freq_other q (Some 0)) by congruence; exact H.
Qed.
Lemma names_sys s sigs qs : names s sigs qs -> Forall (fun q => rsys q = s) qs /\ length qs = length sigs /\ omap (msm2rsig s TC) sigs = Some qs.
Proof.
  unfold names. induction 1 as [|k q sigs qs Hk H (IH1 & IH2 & IH3)]; [repeat split; constructor|].
  split; [constructor; auto|].
  - unfold msm2rsig in Hk. destruct (lookup2 msm_sig_tbl s k); [|discriminate Hk]. injection Hk as <-. reflexivity.
  - split; [cbn; now rewrite IH2|]. cbn [omap]. rewrite Hk. cbn [bind]. now rewrite IH3.
Qed.

(* ---------- time ---------- *)
Lemma msm_time_ok s week tow : 0 <= tow < 2 ^ 30 ->
  ticks 1000 (decode_msm_time s week tow) = epoch_ms s week tow /\ normal 1000 (decode_msm_time s week tow).
Proof.
  intros Ht. change (2 ^ 30) with 1073741824 in Ht.
  assert (G : forall w t, 0 <= t < 2000000000 ->
     ticks 1000 (gpst2time 1000 w t) = gps_ms w t /\ normal 1000 (gpst2time 1000 w t)).
  { intros w t H. unfold gpst2time, gpst0. destruct (wt2time_ok 1000 1980 1 6 w t) as [A B]; try lia. split; [rewrite A; unfold gps_ms; lia|exact B]. }
  assert (B : ticks 1000 (bdt2gpst 1000 (gpst2time 1000 week tow)) = gps_ms week tow + 14000 /\ normal 1000 (bdt2gpst 1000 (gpst2time 1000 week tow))).
  { unfold bdt2gpst. rewrite timeadd_ticks. rewrite (proj1 (G week tow ltac:(lia))). split; [lia|]. now apply timeadd_normal. }
  assert (L : ticks 1000 (decode_msm_time GLO week tow) = epoch_ms GLO week tow /\ normal 1000 (decode_msm_time GLO week tow)).
  { unfold decode_msm_time, epoch_ms.
    assert (E1 : Z.land (Z.shiftr tow 27) 31 = tow / 2 ^ 27).
    { rewrite Z.shiftr_div_pow2 by lia. change 31 with (Z.ones 5). rewrite Z.land_ones by lia. apply Z.mod_small.
      split; [apply Z.div_pos; lia|]. apply Z.div_lt_upper_bound; lia. }
    assert (E2 : Z.land tow 134217727 = tow mod 2 ^ 27).
    { change 134217727 with (Z.ones 27). now rewrite Z.land_ones by lia. }
    rewrite E1, E2.
    assert (R : 0 <= tow / 2 ^ 27 < 8) by (split; [apply Z.div_pos; lia|apply Z.div_lt_upper_bound; lia]).
    assert (R2 : 0 <= tow mod 2 ^ 27 < 2 ^ 27) by (apply Z.mod_pos_bound; lia). change (2 ^ 27) with 134217728 in *.
    set (d := tow / 134217728) in *. set (t := tow mod 134217728) in *.
    destruct (utc2gpst_ok 1000 (timeadd 1000 (gpst2time 1000 week (t + d * 86400000)) (- 10800000))) as [A N]; [lia|now apply timeadd_normal|].
    split; [|exact N]. rewrite A, timeadd_ticks, (proj1 (G week (t + d * 86400000) ltac:(lia))).
    cbv zeta. replace (t + d * 86400000) with (86400000 * d + t) by lia.
    replace (gps_ms week (86400000 * d + t) - 3 * 3600000) with (gps_ms week (86400000 * d + t) + -10800000) by lia. lia. }
  destruct s; try exact B; try exact L; unfold decode_msm_time, epoch_ms; apply G; lia.
Qed.

(* ---------- values ---------- *)
Lemma val_P msm v o : 1 <= msm <= 7 -> range_known msm v -> g_P msm (rc msm v) o = pseudorange msm v o.
Proof.
  intros Hm Hr. unfold pseudorange. rewrite (rc_rough msm v Hr). set (r := rc msm v). clearbody r.
  assert (D : msm = 1 \/ msm = 2 \/ msm = 3 \/ msm = 4 \/ msm = 5 \/ msm = 6 \/ msm = 7) by lia.
  destruct o as [c|]; unfold g_P, f_pr;
  destruct D as [-> | [-> | [-> | [-> | [-> | [-> | ->]]]]]]; unfold widths; cbv iota; zconst; try reflexivity;
  unfold unit_of; destruct (c_pr c) as [u|]; unfold scale, oadd, times, sum, option_map; try reflexivity; f_equal; lia.
Qed.
Lemma val_L msm s v q o : 1 <= msm <= 7 -> rsys q = s -> range_known msm v -> channel_known msm s v -> 0 <= v_ex v ->
  g_L msm s (fcn_of msm s v) (rc msm v) q o = phase msm v q o.
Proof.
  intros Hm Hs Hr Hc Hx. unfold phase. rewrite (rc_rough msm v Hr). set (r := rc msm v). clearbody r.
  assert (F : frequency q (chan s (fcn_of msm s v)) = frequency q (Some (v_ex v - 7))).
  { unfold chan, fcn_of, exc. destruct Hc as [Hc|[He Hc]].
    - destruct s; try (now destruct Hc); apply freq_other; congruence.
    - destruct s; try (apply freq_other; congruence). replace ((msm =? 5) || (msm =? 7)) with true by (unfold extended in He; lia).
      now replace (v_ex v <=? 13) with true by lia. }
  assert (D : msm = 1 \/ msm = 2 \/ msm = 3 \/ msm = 4 \/ msm = 5 \/ msm = 6 \/ msm = 7) by lia.
  destruct o as [c|]; unfold g_L; [rewrite F|];
  destruct D as [-> | [-> | [-> | [-> | [-> | [-> | ->]]]]]]; unfold widths, f_cp; cbv iota; zconst; try reflexivity;
  destruct (frequency q (Some (v_ex v - 7))) as [f|]; try reflexivity;
  unfold unit_of; destruct (c_cp c) as [u|]; unfold scale, oadd, times, sum, option_map; try reflexivity; f_equal; lia.
Qed.
Lemma val_S msm o : 1 <= msm <= 7 -> g_S msm o = strength msm o.
Proof.
  intros Hm. assert (D : msm = 1 \/ msm = 2 \/ msm = 3 \/ msm = 4 \/ msm = 5 \/ msm = 6 \/ msm = 7) by lia.
  destruct o as [c|]; unfold g_S, strength, f_cn; [|reflexivity];
  destruct D as [-> | [-> | [-> | [-> | [-> | [-> | ->]]]]]]; zconst; try reflexivity; lia.
Qed.
Lemma val_ll msm o : 1 <= msm <= 7 -> g_ll msm o = lock_time msm o.
Proof.
  intros Hm. assert (D : msm = 1 \/ msm = 2 \/ msm = 3 \/ msm = 4 \/ msm = 5 \/ msm = 6 \/ msm = 7) by lia.
  destruct o as [c|]; unfold g_ll, lock_time, f_ll; [|reflexivity];
  destruct D as [-> | [-> | [-> | [-> | [-> | [-> | ->]]]]]]; zconst; reflexivity.
Qed.

Lemma prn2sat_inj s p p' : s <> NONE -> prn2sat s p = prn2sat s p' -> p = p'.
Proof. destruct s; cbn [prn2sat]; intros; try lia. now destruct H. Qed.
Lemma locks_get msm s vs : s <> NONE -> StronglySorted Z.lt (map v_prn vs) -> forall l,
  (forall v, In v vs -> zget (prn2sat s (v_prn v)) (locks msm s vs l) = Some (lock_row msm v)) /\
  (forall sat, ~ In sat (map (fun v => prn2sat s (v_prn v)) vs) -> zget sat (locks msm s vs l) = zget sat l).
Proof.
  intros Hs. unfold locks. induction vs as [|v vs IH]; intros Hsort l; [split; [intros ? []|reflexivity]|].
  cbn [map fold_left] in *. inversion Hsort as [|? ? Hs' Hx]; subst. destruct (IH Hs' (zset (prn2sat s (v_prn v)) (lock_row msm v) l)) as [A B].
  split.
  - intros w [<-|Hw]; [|now apply A]. rewrite B; [apply zget_zset_same|].
    intros Hi. apply in_map_iff in Hi as (w & E & Hw). apply prn2sat_inj in E; [|exact Hs].
    rewrite Forall_forall in Hx. specialize (Hx (v_prn w) (in_map v_prn vs w Hw)). lia.
  - intros sat Hn. rewrite B by (intros K; apply Hn; now right). apply zget_zset_other. intros <-. apply Hn. now left.
Qed.
Lemma sorted_nodup l : StronglySorted Z.lt l -> NoDup l.
Proof.
  induction 1 as [|x l H IH Hx]; constructor; auto. intros K. rewrite Forall_forall in Hx. specialize (Hx x K). lia.
Qed.
Lemma Forall2_map_r {A B} (P : A -> B -> Prop) f l : (forall a, In a l -> P a (f a)) -> Forall2 P l (map f l).
Proof. induction l as [|a l IH]; intros H; cbn [map]; constructor; [apply H; now left|]. apply IH. intros. apply H. now right. Qed.
Lemma map2_ext {A B C} (f g : A -> B -> C) l m : (forall a b, In a l -> f a b = g a b) -> map2 f l m = map2 g l m.
Proof.
  revert m. induction l as [|a l IH]; intros [|b m] H; cbn [map2]; auto. rewrite H by (now left). f_equal. apply IH. intros. apply H. now right.
Qed.

(* ---------- the message ---------- *)
Lemma dec_msm mt s msm week lock h sigs qs vs msg i :
  msm_number mt s msm -> msm_ok msm s h sigs qs vs -> At msg i (msm_message msm s h sigs vs) ->
  exists lock' ob, decode_msm mt week lock msg i = Some (lock', ob, (i + length (msm_message msm s h sigs vs))%nat) /\
    ticks 1000 (o_time ob) = epoch_ms s week (h_tow h) /\ normal 1000 (o_time ob) /\
    o_sig ob = qs /\ o_sat ob = map (fun v => prn2sat s (v_prn v)) vs /\
    Forall2 (fun v l => range_known msm v -> l = map (pseudorange msm v) (v_cells v)) vs (o_P ob) /\
    Forall2 (fun v l => range_known msm v -> channel_known msm s v -> l = map2 (phase msm v) qs (v_cells v)) vs (o_L ob) /\
    o_S ob = map (fun v => map (strength msm) (v_cells v)) vs /\
    (forall v, In v vs -> zget (prn2sat s (v_prn v)) lock' = Some (map (lock_time msm) (v_cells v))) /\
    (forall sat, ~ In sat (o_sat ob) -> zget sat lock' = zget sat lock).
Proof.
  intros Hmt (Hm & Hh & Hss & Hsr & Hnm & Hps & Hok & Hfr & H64 & Hne) HA.
  assert (Hs : s <> NONE).
  { destruct Hmt as (c & Hc & <- & _). assert (c = 0 \/ c = 1 \/ c = 2 \/ c = 3 \/ c = 4 \/ c = 5) as D by lia.
    destruct D as [-> | [-> | [-> | [-> | [-> | ->]]]]]; discriminate. }
  pose proof (proj2 (msmtype_iff mt s msm Hs) Hmt) as Ety.
  destruct (names_sys s sigs qs Hnm) as (Hqs & Hql & Hom).
  destruct Hh as (K1 & K2 & K3 & K4 & K5 & K6).
  pose proof Hok as Hok'. rewrite Forall_forall in Hok'.
  assert (Hcl : Forall (fun v => length (v_cells v) = length sigs) vs) by (apply Forall_forall; intros v Hv; apply (Hok' v Hv)).
  unfold msm_message in HA. set (mk := fun v => map (fun o : option cell => match o with Some _ => true | None => false end) (v_cells v)) in *.
  assert (Lm : length (msm_message msm s h sigs vs) = (53 + 8 + 96 + length (column mk vs) + length (sat_fields msm vs) + length (sig_fields msm (flat_map present vs)))%nat).
  { unfold msm_message. fold mk. rewrite !app_length, !bitsof_length, !mask_bits_length. lia. }
  apply At_app in HA as [A1 HA]. apply At_app in HA as [A2 HA]. apply At_app in HA as [A3 HA]. apply At_app in HA as [A4 HA].
  apply At_app in HA as [A5 HA]. apply At_app in HA as [A6 HA]. apply At_app in HA as [A7 HA]. apply At_app in HA as [A8 HA].
  apply At_app in HA as [A9 HA]. apply At_app in HA as [A10 A11].
  rewrite ?bitsof_length, ?mask_bits_length in *.
  replace (i + 12 + 30)%nat with (i + 42)%nat in * by lia. replace (i + 42 + 1)%nat with (i + 43)%nat in * by lia.
  replace (i + 43 + 3 + 7)%nat with (i + 53)%nat in * by lia. 
  unfold decode_msm. rewrite Ety.
  rewrite (getu_bits msg i 12 (h_ref h)) by assumption. cbn [bind].
  rewrite (getu_bits msg (i + 12) 30 (h_tow h)) by assumption. cbn [bind].
  rewrite (getu_bits msg (i + 42) 1 (h_mi h)) by assumption. cbn [bind].
  rewrite (getu_bits msg (i + 43) 3 (h_iods h)) by assumption. cbn [bind].
  rewrite (getu_bits msg (i + 53) 8 (h_clk h)) by assumption. cbn [bind].
  pose proof (getu_at _ _ _ A7) as G7. rewrite mask_bits_length in G7. rewrite G7. cbn [bind].
  pose proof (getu_at _ _ _ A8) as G8. rewrite mask_bits_length in G8. rewrite G8. cbn [bind].
  change (match s with QZS => 193 | SBS => 120 | _ => 1 end) with (first s).
  rewrite (decode_mask_bits (first s) 64 (map v_prn vs)).
  2: exact Hps.
  2: { apply Forall_forall. intros p Hp. apply in_map_iff in Hp as (v & <- & Hv). apply (Hok' v Hv). }
  rewrite (decode_mask_bits 1 32 sigs).
  2: exact Hss.
  2: { eapply Forall_impl; [|exact Hsr]. cbv beta. intros; lia. }
  rewrite map_length. replace (Z.of_nat (length vs) * Z.of_nat (length sigs) <=? 64) with true by lia. cbn [guard bind].
  replace (i + 53 + 8 + 96)%nat with (i + 53 + 8 + 64 + 32)%nat by lia.
  assert (Ecm : cell_masks msg sigs (length vs) (i + 53 + 8 + 64 + 32) =
    Some (map (fun v => sel (map yes (v_cells v)) sigs) vs, (i + 53 + 8 + 64 + 32 + length (column mk vs))%nat)).
  { destruct vs as [|v vs'] eqn:Ev; [cbn; do 2 f_equal; lia|]. rewrite <- Ev in *.
    rewrite (cell_masks_ok msg sigs); [|apply Hne; subst; discriminate|exact Hcl|exact A9].
    do 2 f_equal. rewrite (column_length mk (length sigs)); [lia|]. intros w Hw. unfold mk. rewrite map_length. apply (Hok' w Hw). }
  rewrite Ecm. cbn [bind].
  rewrite (sat_part_ok msg msm s (length sigs) vs _ Hm Hok A10). cbn [bind].
  assert (Enc : fold_right (fun l n => (length l + n)%nat) 0%nat (map (fun v => sel (map yes (v_cells v)) sigs) vs) = length (flat_map present vs)).
  { clear - Hcl. induction Hcl as [|v vs Hv Hl IH]; [reflexivity|]. cbn [map fold_right flat_map]. rewrite app_length, IH. f_equal.
    now apply sel_present. }
  rewrite Enc.
  rewrite (sig_part_ok msg msm (flat_map present vs)); [cbn [bind]|exact Hm| |exact A11].
  2: { apply Forall_forall. intros c Hc. apply in_flat_map in Hc as (v & Hv & Hc). destruct (Hok' v Hv) as (_ & _ & P & _).
       rewrite Forall_forall in P. auto. }
  rewrite Hom. cbn [bind].
  fold (thecols msm (flat_map present vs)).
  rewrite (rows_ok msm s sigs qs (flat_map present vs) (sorted_nodup _ Hss) Hql vs []); [|exact Hcl| |reflexivity].
  2: { rewrite Forall_forall in *. intros v Hv. specialize (Hfr v Hv). unfold has_freq in Hfr.
       clear -Hfr Hqs. revert Hqs. induction Hfr as [|q o l m H F IH]; intros Hqs; constructor.
       - destruct o; [|exact I]. apply freq_chan; [apply Hqs; now left|exact H].
       - apply IH. intros x Hx. apply Hqs. now right. }
  cbn [bind o_time o_sig o_sat o_P o_L o_S o_lli app].
  destruct (msm_time_ok s week (h_tow h)) as [T1 T2]; [exact K2|].
  destruct (locks_get msm s vs Hs Hps lock) as [L1 L2].
  eexists _, _. split; [apply (f_equal Some), f_equal2; [reflexivity|lia]|].
  cbn [o_time o_sig o_sat o_P o_L o_S o_lli]. split; [exact T1|]. split; [exact T2|]. split; [reflexivity|]. split; [reflexivity|].
  split; [|split; [|split; [|split]]].
  - apply Forall2_map_r. intros v Hv Hr. apply map_ext. intros o. now apply val_P.
  - apply Forall2_map_r. intros v Hv Hr Hc. apply map2_ext. intros q o Hq. rewrite Forall_forall in Hqs. apply val_L; auto.
    destruct (Hok' v Hv) as (_ & _ & _ & _ & _ & X & _). apply X.
  - apply map_ext. intros v. apply map_ext. intros o. now apply val_S.
  - intros v Hv. rewrite L1 by exact Hv. f_equal. unfold lock_row. apply map_ext. intros o. now apply val_ll.
  - exact L2.
Qed.

(** more than 64 cells: an exception, whatever follows *)
Lemma dec_msm_64 mt s msm week lock msg i sv sg : s <> NONE -> msmtype mt = (s, msm) ->
  getu msg (i + 61) 64 = Some sv -> getu msg (i + 125) 32 = Some sg ->
  (64 < length (fst (decode_mask sv 64 (first s))) * length (fst (decode_mask sg 32 1)))%nat ->
  decode_msm mt week lock msg i = None.
Proof.
  intros Hs Ht H1 H2 H. unfold decode_msm. rewrite Ht.
  do 5 (match goal with |- (do _ <- getu msg ?a ?b; _) = None => destruct (getu msg a b) eqn:?; cbn [bind]; [|reflexivity] end).
  replace (i + 53 + 8)%nat with (i + 61)%nat by lia. rewrite H1. cbn [bind]. replace (i + 61 + 64)%nat with (i + 125)%nat by lia. rewrite H2. cbn [bind].
  change (match s with QZS => 193 | SBS => 120 | _ => 1 end) with (first s).
  replace (Z.of_nat _ * Z.of_nat _ <=? 64) with false by lia. reflexivity.
Qed.

(** loss-of-lock flags, for any message and any history *)
Lemma lli_same sig sig_n prev hf : forall ll j out r, lli_loop sig sig_n prev hf j ll out = Some r -> r = out.
Proof.
  induction ll as [|x ll IH]; intros j out r H; cbn [lli_loop] in H; [congruence|].
  destruct (nth_error sig j); [|discriminate H]. cbn [bind] in H.
  assert (F : forall z l, existsb (num_is_list z) l = false) by (intros z0 l; induction l; auto).
  rewrite F in H. cbn [negb bind] in H. now apply IH in H.
Qed.
Lemma rows_lli s sig qs sig_n c : forall prn sn r ex o lock ob lock' ob',
  rows s sig qs sig_n c prn sn r ex o lock ob = Some (lock', ob') ->
  (forall l x, In l (o_lli ob) -> In x l -> x = 0) -> forall l x, In l (o_lli ob') -> In x l -> x = 0.
Proof.
  induction prn as [|p prn IH]; intros sn r ex o lock ob lock' ob' H H0; [cbn in H; injection H as <- <-; exact H0|].
  destruct sn as [|l sn], r as [|rk r], ex as [|e ex]; cbn [rows] in H; try (injection H as <- <-; exact H0).
  match type of H with (do w <- ?f; _) = _ => destruct f as [w|]; [|discriminate H] end. cbn [bind] in H.
  match type of H with (do w <- ?f; _) = _ => destruct f as [lli|] eqn:E; [|discriminate H] end. cbn [bind] in H.
  assert (El : lli = repeat 0 (length sig)).
  { destruct (zget _ _); [now apply lli_same in E|congruence]. }
  refine (IH _ _ _ _ _ _ _ _ H _). unfold obs_add. cbn [o_lli]. intros l1 x Hl Hx. apply in_app_iff in Hl as [Hl|[<-|[]]]; [eauto|].
  subst lli. now apply repeat_spec in Hx.
Qed.
Lemma msm_lli mt week lock msg i lock' ob n : decode_msm mt week lock msg i = Some (lock', ob, n) ->
  forall l x, In l (o_lli ob) -> In x l -> x = 0.
Proof.
  unfold decode_msm. destruct (msmtype mt) as [sys msm]. intros H.
  repeat match type of H with
  | (do _ <- ?f; _) = Some _ => destruct f as [?|] eqn:?; cbn [bind] in H; [|discriminate H]
  | (let (_, _) := ?p in _) = Some _ => destruct p eqn:?
  end.
  injection H as <- <- <-. eapply rows_lli; [eassumption|]. cbn [o_lli]. intros ? ? [].
Qed.
