(** The grid encoder of RGridModel.v writes the messages of RAtmSpec.v. *)
From Verif Require Import SatModel SatSpec TimeModel CssrState CssrFacts RtcmFrame RtcmSsr RtcmFrameSpec RtcmFrameProofs RtcmSsrSpec RtcmSsrProofs
  RAtmModel RAtmSpec RAtmProofs RAtmGrid RGridModel RGridSpec Base BaseFacts.
From Coq Require Import ZifyBool ZifyNat.
Notation length := List.length.
Open Scope Z_scope.

Lemma quot_step U x y : 0 < U -> Z.quot (U * (x + y) - U * x) U = y.
Proof. intros H. replace (U * (x + y) - U * x) with (y * U) by lia. apply Z.quot_mul. lia. Qed.
Lemma quot_tick U x : 0 < U -> Z.quot (U * x) U = x.
Proof. intros H. rewrite Z.mul_comm. apply Z.quot_mul. lia. Qed.
Lemma oadd_some a b z : oadd a b = Some z -> exists x y, a = Some x /\ b = Some y /\ z = x + y.
Proof. destruct a, b; cbn; intros H; try discriminate. injection H as <-. eauto. Qed.
Lemma puts_some msg i w j n v : (1 <= n)%nat -> (i + length w + n <= length msg)%nat -> fits n (Some v) -> j = (i + length w)%nat ->
  puts (splice msg i w) j n v = Some (splice msg i (w ++ field n (Some v))).
Proof. exact (puts_app msg i w j n (Some v)). Qed.

Lemma enc_steps_ok U ty g msg : 0 < U -> ty = 0 \/ ty = 1 -> forall rest done l a b c w i,
  d_steps g = done ++ rest -> length l = length rest ->
  at_point U ty g (length done) (a, b, c) ->
  (forall k p, nth_error l k = Some p -> at_point U ty g (S (length done + k)) p) ->
  Forall (fun x => let '(a, b, c) := x in fits 13 a /\ fits 14 b /\ (ty = 0 -> fits 9 c)) rest ->
  i = (24 + length w)%nat -> (24 + length w + length (flat_map (step_bits ty) rest) <= length msg)%nat ->
  enc_steps U ty l a b c (splice msg 24 w) i =
    Some (splice msg 24 (w ++ flat_map (step_bits ty) rest), (24 + length (w ++ flat_map (step_bits ty) rest))%nat).
Proof.
  intros HU Hty. induction rest as [|[[xa xb] xc] rest IH]; intros done l a b c w i E L P PS F -> Hl.
  - destruct l; [|discriminate]. cbn [flat_map enc_steps]. now rewrite app_nil_r.
  - destruct l as [|[[a' b'] c'] l]; [discriminate|]. injection L as L.
    pose proof (PS 0%nat _ eq_refl) as P'. rewrite Nat.add_0_r in P'.
    apply Forall_cons_iff in F as [(Fa & Fb & Fc) F]. cbn [flat_map] in *. rewrite app_length, step_len in Hl.
    assert (K := P'). unfold at_point in P, P'. destruct (d_ref g) as [[lat lon] alt] eqn:Er.
    destruct P as (x & y & X & -> & Y & -> & Z1). destruct P' as (x' & y' & X' & -> & Y' & -> & Z1').
    rewrite (pos_step _ _ g done (xa, xb, xc) rest E) in X'. rewrite (pos_step _ _ g done (xa, xb, xc) rest E) in Y'. cbn [lat_of lon_of fst snd] in X', Y'. rewrite X in X'. rewrite Y in Y'.
    apply oadd_some in X' as (? & va & [= <-] & -> & ->). apply oadd_some in Y' as (? & vb & [= <-] & -> & ->).
    cbn [enc_steps]. rewrite !quot_step by exact HU.
    assert (HL : (24 + length w + 27 <= length msg)%nat) by (destruct (ty =? 0); lia).
    rewrite puts_some by first [assumption | lia]. cbn [bind].
    rewrite puts_some by first [assumption | lia | pl]. cbn [bind].
    specialize (IH (done ++ [(Some va, Some vb, xc)]) l (U * (x + va)) (U * (y + vb)) c').
    rewrite <- app_assoc in IH. rewrite app_length in IH. cbn [length] in IH. rewrite Nat.add_1_r in IH.
    destruct Hty as [-> | ->]; cbn [Z.eqb] in *.
    + specialize (Fc eq_refl). destruct (Z1 eq_refl) as (z & Z2 & ->). destruct (Z1' eq_refl) as (z' & Z2' & ->).
      rewrite (pos_step _ _ g done (Some va, Some vb, xc) rest E) in Z2'. cbn [alt_of snd] in Z2'. rewrite Z2 in Z2'.
      apply oadd_some in Z2' as (? & vc & [= <-] & -> & ->). rewrite quot_step by exact HU.
      rewrite puts_some by first [assumption | lia | pl]. cbn [bind].
      specialize (IH (((w ++ field 13 (Some va)) ++ field 14 (Some vb)) ++ field 9 (Some vc)) (24 + length w + 36)%nat).
      rewrite IH; clear IH; [| exact E | exact L | exact K | | exact F | pl | rewrite !app_length, !field_length by lia; lia].
      * unfold step_bits at 2 4. cbn [Z.eqb]. rewrite <- !app_assoc. reflexivity.
      * intros k p Hk. specialize (PS (S k) p Hk). now rewrite Nat.add_succ_r in PS.
    + cbn [Z.eqb bind]. specialize (IH ((w ++ field 13 (Some va)) ++ field 14 (Some vb)) (24 + length w + 27)%nat).
      rewrite IH; clear IH; [| exact E | exact L | exact K | | exact F | pl | rewrite !app_length, !field_length by lia; lia].
      * unfold step_bits at 2 4. cbn [Z.eqb]. rewrite ?app_nil_r, <- !app_assoc. reflexivity.
      * intros k p Hk. specialize (PS (S k) p Hk). now rewrite Nat.add_succ_r in PS.
Qed.

Lemma enc_grid U ty e g msg : 0 < U -> ty = 0 \/ ty = 1 -> grid_ok ty g -> grid_given U ty e g -> (24 + length (grid_message ty g) <= length msg)%nat ->
  encode_mt61 U e msg = Some (splice msg 24 (grid_message ty g), (24 + length (grid_message ty g))%nat).
Proof.
  intros HU Hty. unfold grid_ok, grid_given, grid_message. destruct (d_ref g) as [[lat lon] alt] eqn:Er.
  intros (H1 & H2 & F1 & F2 & H3 & H4 & H5 & F) (G0 & G1 & G2 & G3 & G4 & G5 & GL & GP) Hl.
  unfold encode_mt61. rewrite !G0. rewrite <- (splice_nil msg 24) at 1.
  set (fl := filter (fun p => fst p =? d_gid g) (eg_grid e)) in *.
  destruct fl as [|[n0 [[a b] c]] l] eqn:Efl; [discriminate|]. cbn [length] in GL.
  pose proof (GP 0%nat _ eq_refl) as P0. cbn [snd] in P0. assert (K := P0). unfold at_point in P0. rewrite Er in P0. rewrite !pos_zero in P0.
  destruct P0 as (x & y & -> & Ea & -> & Eb & Z0).
  assert (S1 : forall w, (24 + length w + length (flat_map (step_bits ty) (d_steps g)) <= length msg)%nat -> forall i, i = (24 + length w)%nat ->
    enc_steps U ty (map snd l) a b c (splice msg 24 w) i = Some (splice msg 24 (w ++ flat_map (step_bits ty) (d_steps g)), (24 + length (w ++ flat_map (step_bits ty) (d_steps g)))%nat)).
  { intros w Hw i ->. apply (enc_steps_ok U ty g msg HU Hty (d_steps g) []); auto; [rewrite map_length; lia|].
    intros k p Hk. rewrite nth_error_map in Hk. destruct (nth_error l k) as [q|] eqn:Eq; [|discriminate]. injection Hk as <-. exact (GP (S k) q Eq). }
  assert (LL : Z.of_nat (length (map snd ((n0, (a, b, c)) :: l))) - 1 = Z.of_nat (length (d_steps g))) by (rewrite map_length; cbn [length]; lia).
  destruct Hty as [-> | ->]; cbn [Z.eqb Pos.eqb] in *;
  rewrite ?app_length, ?bitsof_length, ?field_length in Hl by lia; cbn [length] in Hl;
  rewrite ?app_length, ?bitsof_length, ?field_length in Hl by lia; cbn [length] in Hl;
  (rewrite putu_app by first [lia | cbn; lia | pl]); cbn [bind]; change (edispatch 61) with (KSsr SGRID); cbv iota;
  unfold encode_grid; rewrite G1, G2, G3, G4, G5; fold fl; rewrite ?Efl; rewrite LL; cbn [map snd];
  (rewrite putu_app by first [assumption | lia | pl]); cbn [bind];
  (rewrite putu_app by first [assumption | apply b2z_range | lia | pl]); cbn [bind];
  (rewrite putu_app by first [assumption | lia | pl]); cbn [bind];
  (rewrite putu_app by first [assumption | cbn; lia | pl]); cbn [bind Z.eqb Pos.eqb orb negb];
  subst a b; rewrite !quot_tick by exact HU;
  (rewrite puts_some by first [assumption | lia | pl]); cbn [bind];
  (rewrite puts_some by first [assumption | lia | pl]); cbn [bind].
  - destruct (Z0 eq_refl) as (z & [= <-] & ->). replace (U * (alt - 80) + 80 * U) with (U * alt) by lia. rewrite quot_tick by exact HU.
    (rewrite putu_app by first [assumption | lia | pl]); cbn [bind].
    (rewrite putu_app by first [assumption | lia | pl]); cbn [bind].
    (rewrite putu_app by first [assumption | lia | pl]); cbn [bind].
    rewrite S1; [ | rewrite !app_length, !bitsof_length, !field_length by lia; cbn [length]; lia | pl].
    rewrite bit1, <- !app_assoc. reflexivity.
  - (rewrite putu_app by first [assumption | lia | pl]); cbn [bind].
    (rewrite putu_app by first [assumption | lia | pl]); cbn [bind].
    rewrite S1; [ | rewrite !app_length, !bitsof_length, !field_length by lia; cbn [length]; lia | pl].
    rewrite bit1, <- !app_assoc. reflexivity.
Qed.
Lemma grid_trip U e g msg (st : gst) : 0 < U -> grid_ok 0 g -> grid_given U 0 e g -> (24 + length (grid_message 0 g) <= length msg)%nat ->
  exists out st', encode_mt61 U e msg = Some (out, (24 + length (grid_message 0 g))%nat) /\
    decode_mt61 st out = Some (st', (24 + length (grid_message 0 g))%nat) /\
    gs_pid st' = eg_pid e /\ gs_mi st' = eg_mi e /\ gs_gid st' = eg_gid e /\ gs_type st' = eg_type e /\
    (forall k n a b c, nth_error (filter (fun p => fst p =? eg_gid e) (eg_grid e)) k = Some (n, (a, b, c)) ->
      exists p x y z, nth_error (gs_grid st') k = Some p /\ gp_nid p = n /\ gp_id p = eg_ofst e + Z.of_nat k /\
        gp_lat p = Some x /\ gp_lon p = Some y /\ gp_alt p = Some z /\ a = U * x /\ b = U * y /\ c = U * z).
Proof.
  intros HU Hok Hg Hl. pose proof (enc_grid U 0 e g msg HU (or_introl eq_refl) Hok Hg Hl) as E.
  pose proof (splice_at msg 24 _ Hl) as A. destruct (dec_type0 g st _ Hok A) as (st' & D & Ef & Nu & _).
  eexists _, st'. split; [exact E|]. split; [exact D|]. unfold grid_effect in Ef. destruct Hg as (_ & -> & -> & -> & -> & -> & GL & GP).
  destruct (d_ref g) as [[lat lon] alt] eqn:Er. destruct Ef as (-> & -> & -> & _ & -> & _ & _ & L & P). do 4 (split; [reflexivity|]).
  intros k n a b c Hk. pose proof (GP k _ Hk) as Q. cbn [snd] in Q. unfold at_point in Q. rewrite Er in Q.
  destruct Q as (x & y & X & Ea & Y & Eb & Z0). destruct (Z0 eq_refl) as (z & Zz & Ec).
  assert (B : (k < length (gs_grid st'))%nat). { rewrite L, <- GL. apply nth_error_Some. congruence. }
  apply nth_error_Some in B. destruct (nth_error (gs_grid st') k) as [p|] eqn:Ep; [|congruence].
  destruct (P k p Ep) as (P1 & P2 & P3 & P4). rewrite X in P2. rewrite Y in P3. cbn [Z.eqb] in P4. rewrite Zz in P4.
  exists p, x, y, z. split; [reflexivity|]. split.
  - rewrite P1. apply nth_error_In, filter_In in Hk as [_ Hk]. cbn [fst] in Hk. lia.
  - split; [exact (Nu k p Ep)|]. repeat split; assumption.
Qed.

(* ---------- positions between the steps ---------- *)
Definition qstep (U : Z) (p p' : Z * Z * Z) : option Z * option Z * option Z :=
  let '(a, b, c) := p in let '(a', b', c') := p' in (Some (Z.quot (a' - a) U), Some (Z.quot (b' - b) U), Some (Z.quot (c' - c) U)).
Fixpoint qsteps (U : Z) (p : Z * Z * Z) (l : list (Z * Z * Z)) : list (option Z * option Z * option Z) :=
  match l with [] => [] | p' :: l => qstep U p p' :: qsteps U p' l end.
Lemma qsteps_len U l : forall p, length (qsteps U p l) = length l.
Proof. induction l as [|p' l IH]; intros p; cbn; [reflexivity|now rewrite IH]. Qed.
Lemma quot_err U d : 0 < U -> Z.abs (d - U * Z.quot d U) <= U - 1.
Proof.
  intros H. pose proof (Z.quot_rem' d U) as E. replace (d - U * Z.quot d U) with (Z.rem d U) by lia.
  pose proof (Z.rem_bound_abs d U ltac:(lia)). lia.
Qed.
Lemma quot_lt U d n : 0 < U -> Z.abs d < n * U -> Z.abs (Z.quot d U) < n.
Proof.
  intros H Hd. rewrite <- (Z.abs_eq U) by lia. rewrite <- Z.quot_abs by lia. rewrite Z.quot_div_nonneg by lia. apply Z.div_lt_upper_bound; lia.
Qed.
Lemma total_cons r s l : total (Some r :: Some s :: l) = total (Some (r + s) :: l).
Proof. cbn. destruct (total l); [f_equal; lia|reflexivity]. Qed.
Lemma path_err U (f : Z * Z * Z -> Z) sel : 0 < U -> (forall p p', sel (qstep U p p') = Some (Z.quot (f p' - f p) U)) ->
  forall l p r err k q, Z.abs (f p - U * r) <= err -> nth_error (p :: l) k = Some q ->
  exists x, total (Some r :: map sel (firstn k (qsteps U p l))) = Some x /\ Z.abs (f q - U * x) <= err + Z.of_nat k * (U - 1).
Proof.
  intros HU Hs. induction l as [|p' l IH]; intros p r err k q He Hk.
  - destruct k; [|destruct k; discriminate]. injection Hk as <-. cbn. eexists. split; [reflexivity|]. rewrite Z.add_0_r. lia.
  - destruct k as [|k].
    + injection Hk as <-. cbn. eexists. split; [reflexivity|]. rewrite Z.add_0_r. lia.
    + cbn [qsteps firstn map]. rewrite Hs, total_cons. cbn [nth_error] in Hk.
      destruct (IH p' (r + Z.quot (f p' - f p) U) (err + (U - 1)) k q) as (x & -> & Hx).
      * pose proof (quot_err U (f p' - f p) HU). lia.
      * exact Hk.
      * eexists. split; [reflexivity|]. lia.
Qed.
Lemma fits_abs n v : (1 <= n)%nat -> Z.abs v < 2 ^ (Z.of_nat n - 1) -> fits n (Some v).
Proof. intros Hn H. unfold fits. lia. Qed.
Lemma chain_fits U : 0 < U -> forall l p, chain_ok U p l ->
  Forall (fun x => let '(a, b, c) := x in fits 13 a /\ fits 14 b /\ (0 = 0 -> fits 9 c)) (qsteps U p l).
Proof.
  intros HU. induction l as [|[[a' b'] c'] l IH]; intros [[a b] c] H; cbn [qsteps]; constructor.
  - destruct H as (H1 & H2 & H3 & _). cbn [qstep]. repeat split; intros; apply fits_abs; try lia; apply quot_lt; auto.
  - apply IH. apply H.
Qed.
Lemma enc_chain U msg : 0 < U -> forall l p w i, chain_ok U p l -> i = (24 + length w)%nat ->
  (24 + length w + length (flat_map (step_bits 0) (qsteps U p l)) <= length msg)%nat ->
  enc_steps U 0 l (fst (fst p)) (snd (fst p)) (snd p) (splice msg 24 w) i =
    Some (splice msg 24 (w ++ flat_map (step_bits 0) (qsteps U p l)), (24 + length (w ++ flat_map (step_bits 0) (qsteps U p l)))%nat).
Proof.
  intros HU. induction l as [|[[a' b'] c'] l IH]; intros [[a b] c] w i H -> Hl.
  - cbn [qsteps flat_map enc_steps]. now rewrite app_nil_r.
  - pose proof (chain_fits U HU _ _ H) as F. cbn [qsteps] in *. apply Forall_cons_iff in F as [(F1 & F2 & F3) _]. specialize (F3 eq_refl).
    cbn [flat_map] in *. rewrite app_length, step_len in Hl. cbn [Z.eqb] in Hl. cbn [enc_steps fst snd].
    rewrite puts_some by first [assumption | lia]. cbn [bind].
    rewrite puts_some by first [assumption | lia | pl]. cbn [bind Z.eqb].
    rewrite puts_some by first [assumption | lia | pl]. cbn [bind].
    destruct H as (_ & _ & _ & H). rewrite (IH (a', b', c') _ _ H); [|pl|rewrite !app_length, !field_length by lia; lia].
    cbn [qstep]. unfold step_bits at 2 4. cbn [Z.eqb]. rewrite <- !app_assoc. reflexivity.
Qed.
Definition sent (U : Z) (e : egrid) : grid :=
  match net_of e with
  | [] => GR 0 false 0 (None, None, 0) 0 []
  | (a, b, c) :: l => GR (eg_pid e) (eg_mi e) (eg_gid e) (Some (Z.quot a U), Some (Z.quot b U), Z.quot (c + 80 * U) U) (eg_ofst e) (qsteps U (a, b, c) l)
  end.
Lemma grid_msg_len g : length (grid_message 0 g) = (109 + 36 * length (d_steps g))%nat.
Proof.
  unfold grid_message. destruct (d_ref g) as [[lat lon] alt]. cbn [Z.eqb]. rewrite !app_length, !bitsof_length, !field_length by lia. cbn [length].
  assert (K : forall l, length (flat_map (step_bits 0) l) = (36 * length l)%nat).
  { induction l as [|x l IH]; [reflexivity|]. cbn [flat_map]. rewrite app_length, step_len, IH. cbn [Z.eqb length]. lia. }
  rewrite K. lia.
Qed.
Lemma sent_ok U e : 0 < U -> any_grid U e -> grid_ok 0 (sent U e).
Proof.
  intros HU (_ & _ & H1 & H2 & H3 & HL & H). unfold sent. destruct (net_of e) as [|[[a b] c] l]; [contradiction|]. destruct H as (Ha & Hb & Hc & H).
  unfold grid_ok. cbn [d_ref d_pid d_gid d_ofst d_steps]. split; [exact H1|]. split; [exact H2|].
  split; [apply fits_abs; [lia|]; now apply quot_lt|]. split; [apply fits_abs; [lia|]; now apply quot_lt|].
  split. { rewrite Z.quot_div_nonneg by lia. split; [apply Z.div_pos; lia|apply Z.div_lt_upper_bound; lia]. }
  split; [exact H3|]. rewrite qsteps_len. cbn [length] in HL. split; [lia|]. now apply chain_fits.
Qed.
Lemma enc_any U e msg : 0 < U -> any_grid U e -> (24 + length (grid_message 0 (sent U e)) <= length msg)%nat ->
  encode_mt61 U e msg = Some (splice msg 24 (grid_message 0 (sent U e)), (24 + length (grid_message 0 (sent U e)))%nat).
Proof.
  intros HU Hg Hl. pose proof (sent_ok U e HU Hg) as Hok. destruct Hg as (G0 & G4 & _ & _ & _ & _ & Hn).
  rewrite grid_msg_len in Hl. unfold sent in *. unfold net_of in *.
  destruct (map snd (filter (fun p => fst p =? eg_gid e) (eg_grid e))) as [|[[a b] c] l] eqn:En; [contradiction|]. destruct Hn as (_ & _ & _ & Hch).
  unfold grid_ok in Hok. cbn [d_ref d_pid d_gid d_ofst d_steps d_mi] in *. destruct Hok as (H1 & H2 & F1 & F2 & H3 & H4 & H5 & F).
  assert (LS : length (flat_map (step_bits 0) (qsteps U (a, b, c) l)) = (36 * length (qsteps U (a, b, c) l))%nat).
  { pose proof (grid_msg_len (GR 0 false 0 (None, None, 0) 0 (qsteps U (a, b, c) l))) as X. unfold grid_message in X. cbn [d_ref d_steps d_pid d_mi d_gid d_ofst Z.eqb] in X.
    rewrite !app_length, !bitsof_length, !field_length in X by lia. cbn [length] in X. lia. }
  unfold encode_mt61. rewrite !G0. rewrite <- (splice_nil msg 24) at 1.
  rewrite putu_app by first [lia | cbn; lia | pl]. cbn [bind]. change (edispatch 61) with (KSsr SGRID). cbv iota.
  unfold encode_grid. rewrite En, G4.
  assert (LL : Z.of_nat (length ((a, b, c) :: l)) - 1 = Z.of_nat (length (qsteps U (a, b, c) l))) by (rewrite qsteps_len; cbn [length]; lia). rewrite LL.
  (rewrite putu_app by first [assumption | lia | pl]); cbn [bind].
  (rewrite putu_app by first [assumption | apply b2z_range | lia | pl]); cbn [bind].
  (rewrite putu_app by first [assumption | lia | pl]); cbn [bind].
  (rewrite putu_app by first [assumption | cbn; lia | pl]); cbn [bind Z.eqb Pos.eqb orb negb].
  (rewrite puts_some by first [assumption | lia | pl]); cbn [bind].
  (rewrite puts_some by first [assumption | lia | pl]); cbn [bind].
  (rewrite putu_app by first [assumption | lia | pl]); cbn [bind].
  (rewrite putu_app by first [assumption | lia | pl]); cbn [bind].
  (rewrite putu_app by first [assumption | lia | pl]); cbn [bind].
  rewrite (enc_chain U msg HU l (a, b, c)); [ | exact Hch | pl | rewrite !app_length, !bitsof_length, !field_length by lia; cbn [length]; lia].
  unfold grid_message. cbn [d_ref d_steps d_pid d_mi d_gid d_ofst Z.eqb]. rewrite bit1, <- !app_assoc. reflexivity.
Qed.
Lemma grid_near U e msg (st : gst) : 0 < U -> any_grid U e -> (133 + 36 * (length (net_of e) - 1) <= length msg)%nat ->
  exists out n st', encode_mt61 U e msg = Some (out, n) /\ decode_mt61 st out = Some (st', n) /\ length (gs_grid st') = length (net_of e) /\
    (forall k a b c, nth_error (net_of e) k = Some (a, b, c) ->
      exists p x y z, nth_error (gs_grid st') k = Some p /\ gp_nid p = eg_gid e /\ gp_id p = eg_ofst e + Z.of_nat k /\
        gp_lat p = Some x /\ gp_lon p = Some y /\ gp_alt p = Some z /\
        Z.abs (a - U * x) <= (Z.of_nat k + 1) * (U - 1) /\ Z.abs (b - U * y) <= (Z.of_nat k + 1) * (U - 1) /\ Z.abs (c - U * z) <= (Z.of_nat k + 1) * (U - 1)).
Proof.
  intros HU Hg Hl. pose proof (sent_ok U e HU Hg) as Hok.
  assert (HL : (24 + length (grid_message 0 (sent U e)) <= length msg)%nat).
  { rewrite grid_msg_len. destruct Hg as (_ & _ & _ & _ & _ & _ & Hn). unfold sent. destruct (net_of e) as [|[[a b] c] l]; [contradiction|]. cbn [d_steps]. rewrite qsteps_len. cbn [length] in Hl. lia. }
  pose proof (enc_any U e msg HU Hg HL) as E. pose proof (splice_at msg 24 _ HL) as A. destruct (dec_type0 _ st _ Hok A) as (st' & D & Ef & Nu & _).
  eexists _, _, st'. split; [exact E|]. split; [exact D|]. clear E A D HL Hl Hok.
  destruct Hg as (_ & _ & _ & _ & _ & _ & Hn). unfold grid_effect, numbered, sent in *. destruct (net_of e) as [|[[a0 b0] c0] l]; [contradiction|].
  cbn [d_ref d_steps d_pid d_mi d_gid d_ofst] in *. destruct Ef as (_ & _ & _ & _ & _ & _ & _ & L & P). rewrite qsteps_len in L. split; [exact L|].
  intros k a b c Hk.
  assert (B : (k < length (gs_grid st'))%nat). { rewrite L. change (S (length l)) with (length ((a0, b0, c0) :: l)). apply nth_error_Some. congruence. }
  apply nth_error_Some in B. destruct (nth_error (gs_grid st') k) as [p|] eqn:Ep; [|congruence].
  destruct (P k p Ep) as (P1 & P2 & P3 & P4). unfold pos_of in P2, P3, P4. cbn [d_steps Z.eqb] in P2, P3, P4.
  destruct (path_err U (fun p => fst (fst p)) lat_of HU ltac:(intros [[? ?] ?] [[? ?] ?]; reflexivity) l (a0, b0, c0) (Z.quot a0 U) (U - 1) k (a, b, c)
    ltac:(apply quot_err; exact HU) Hk) as (x & X & Hx).
  destruct (path_err U (fun p => snd (fst p)) lon_of HU ltac:(intros [[? ?] ?] [[? ?] ?]; reflexivity) l (a0, b0, c0) (Z.quot b0 U) (U - 1) k (a, b, c)
    ltac:(apply quot_err; exact HU) Hk) as (y & Y & Hy).
  destruct (path_err U snd alt_of HU ltac:(intros [[? ?] ?] [[? ?] ?]; reflexivity) l (a0, b0, c0) (Z.quot (c0 + 80 * U) U - 80) (U - 1) k (a, b, c)
    ltac:(pose proof (quot_err U (c0 + 80 * U) HU); cbn [snd]; lia) Hk) as (z & Zz & Hz).
  rewrite X in P2. rewrite Y in P3. rewrite Zz in P4. cbn [fst snd] in *.
  exists p, x, y, z. split; [reflexivity|]. split; [exact P1|]. split; [exact (Nu k p Ep)|]. repeat (split; [assumption|]). lia.
Qed.
