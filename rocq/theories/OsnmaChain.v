From Verif Require Import BaseFacts BitProofs CssrFacts TimeModel OsnmaModel OsnmaSpec OsnmaProofs OsnmaTags OsnmaHist OsnmaStep OsnmaToy.
From Coq Require Import ZifyBool ZifyNat.
Open Scope Z_scope.

Section K.
Variable C : crypto.
Implicit Types s : ost C.

Lemma gst_pack_ok w x : 0 <= w < 4096 -> 0 <= x < 604800 -> gst_pack w x = Some (gst (604800 * w + x)).
Proof.
  intros W X. unfold gst_pack. replace (_ && _) with true by (change (2 ^ 12) with 4096; change (2 ^ 20) with 1048576; lia).
  unfold gst. rewrite <- (Z.div_unique (604800 * w + x) 604800 w x), <- (Z.mod_unique (604800 * w + x) 604800 w x) by lia. reflexivity.
Qed.
Lemma chain_total hf alp lkb n : forall k key w t, hf_ok hf -> 1 <= w < 4096 -> 0 <= t < 604800 -> 30 * (Z.of_nat k + Z.of_nat n) <= t + 30 ->
  chain_loop C hf alp lkb n (Z.of_nat k) key w t = Some (tesla C hf alp (8 * lkb) n key (604800 * w + t - 30 * Z.of_nat k)).
Proof.
  induction n as [|n IH]; intros k key w t HF W T N; [reflexivity|].
  cbn [chain_loop tesla]. cbv zeta. apply hf_okb in HF as HB.
  destruct (Z.ltb_spec (t - 30 * (Z.of_nat k + 1)) 0) as [L|L].
  - assert (n = 0)%nat by lia. subst n. rewrite gst_pack_ok by lia. cbn [bind]. unfold process_hash. rewrite HB. cbn [bind chain_loop tesla].
    unfold down. replace (604800 * (w - 1) + (t - 30 * (Z.of_nat k + 1) + 604800)) with (604800 * w + t - 30 * Z.of_nat k - 30) by lia. reflexivity.
  - rewrite gst_pack_ok by lia. cbn [bind]. unfold process_hash. rewrite HB. cbn [bind].
    replace (Z.of_nat k + 1) with (Z.of_nat (S k)) by lia. rewrite IH by (try assumption; lia). unfold down. f_equal.
    replace (604800 * w + t - 30 * Z.of_nat (S k)) with (604800 * w + t - 30 * Z.of_nat k - 30) by lia.
    replace (604800 * w + (t - 30 * Z.of_nat (S k))) with (604800 * w + t - 30 * Z.of_nat k - 30) by lia. reflexivity.
Qed.
Lemma update_ok s key w t n lk : keylen (k_ks (o_kp s)) = Some lk -> hf_ok (k_hf (o_kp s)) -> 1 <= w < 4096 -> 0 <= t < 604800 ->
  30 * Z.of_nat n <= t + 30 ->
  update_key_chain s key w t (Z.of_nat n) = Some (tesla C (k_hf (o_kp s)) (k_alp (o_kp s)) lk n key (604800 * w + t)).
Proof.
  intros L HF W T N. unfold update_key_chain.
  assert (I : item klen_t (k_ks (o_kp s)) = Some (Z.of_nat lk)) by (apply item_klen; rewrite Nat2Z.id; split; [exact L|lia]).
  rewrite I. cbn [bind]. rewrite Nat2Z.id.
  pose proof (chain_total (k_hf (o_kp s)) (k_alp (o_kp s)) (Z.to_nat (Z.of_nat lk / 8)) n 0 key w t HF W T ltac:(lia)) as Q.
  cbn [Z.of_nat] in Q. rewrite Q. destruct (keylen_8 _ _ L) as (b & -> & _).
  assert (E : (8 * Z.to_nat (Z.of_nat (8 * b) / 8))%nat = (8 * b)%nat).
  { replace (Z.of_nat (8 * b)) with (Z.of_nat b * 8) by lia. rewrite Z.div_mul by lia. lia. }
  rewrite E. f_equal. f_equal. lia.
Qed.
(** acceptance of a key: against the root key, or against the key before *)
Lemma accept_root s key w t lk : t_rv (o_stat s) = true -> t_kc (o_stat s) = false ->
  keylen (k_ks (o_kp s)) = Some lk -> hf_ok (k_hf (o_kp s)) -> w = k_wn (o_kp s) -> 1 <= w < 4096 -> 0 <= k_towh (o_kp s) -> 3600 * k_towh (o_kp s) <= t < 604800 ->
  exists b, verify_key_chain key w t s = (set_stat (st_kc b (o_stat s)) s, Some b) /\ (b = true <-> on_chain C (o_kp s) key (604800 * w + t)).
Proof.
  intros RV KC L HF EW W TH T. unfold verify_key_chain. rewrite RV, KC. cbn [negb]. cbv zeta.
  set (N := ((w - k_wn (o_kp s)) * 86400 * 7 + (t - k_towh (o_kp s) * 3600)) / 30 + 1).
  assert (EN : N = (604800 * w + t - (604800 * k_wn (o_kp s) + 3600 * k_towh (o_kp s))) / 30 + 1).
  { unfold N. f_equal. f_equal. lia. }
  assert (PN : 0 <= N) by (rewrite EN; assert (0 <= (604800 * w + t - (604800 * k_wn (o_kp s) + 3600 * k_towh (o_kp s))) / 30) by (apply Z.div_pos; lia); lia).
  assert (BN : 30 * N <= t + 30).
  { rewrite EN. set (x := 604800 * w + t - (604800 * k_wn (o_kp s) + 3600 * k_towh (o_kp s))). assert (x <= t) by (subst x; lia).
    pose proof (Z.div_mod x 30 ltac:(lia)). pose proof (Z.mod_pos_bound x 30 ltac:(lia)). lia. }
  clearbody N. rewrite <- (Z2Nat.id N PN). rewrite (update_ok s key w t (Z.to_nat N) lk) by (try assumption; lia). cbn [bind].
  match goal with |- context [beqb ?a ?c] => exists (beqb a c); destruct (beqb a c) eqn:B end; (split; [reflexivity|]).
  - apply beqb_eq in B. split; [intros _|reflexivity]. exists lk. rewrite <- EN. auto.
  - apply beqb_neq in B. split; [discriminate|]. intros (lk' & L' & Q). rewrite L in L'. injection L' as <-. rewrite <- EN in Q. congruence.
Qed.
Lemma accept_next s key w t lk : t_rv (o_stat s) = true -> t_kc (o_stat s) = true ->
  keylen (k_ks (o_kp s)) = Some lk -> hf_ok (k_hf (o_kp s)) -> 1 <= w < 4096 -> 0 <= t < 604800 ->
  exists b, verify_key_chain key w t s = (set_stat (st_kc b (o_stat s)) s, Some b) /\
    (b = true <-> tesla C (k_hf (o_kp s)) (k_alp (o_kp s)) lk 1 key (604800 * w + t) = o_keyp s).
Proof.
  intros RV KC L HF W T. unfold verify_key_chain. rewrite RV, KC. cbn [negb]. cbv zeta.
  change 1 with (Z.of_nat 1). rewrite (update_ok s key w t 1 lk) by (try assumption; lia). cbn [bind].
  match goal with |- context [beqb ?a ?c] => exists (beqb a c); destruct (beqb a c) eqn:B end; (split; [reflexivity|]).
  - apply beqb_eq in B. tauto.
  - apply beqb_neq in B. intuition discriminate.
Qed.
End K.

(** a hash function for the witness: the complement of the time stamp (for keys of 96 bits) and of the beginning of the key *)
Definition stamp : crypto := CR bits (fun _ m => map negb (slice m 96 32 ++ firstn 64 m) ++ zeros 160) (fun _ k m => Some (firstn 128 (k ++ m ++ zeros 128))) (fun _ _ _ _ => Some true) (fun _ k => Some k).
(** a state with a verified root key of week 1199, second 604800 - 3600 *)
Definition key_wk : bits := bitsof 96 (987654321 * 987654321).
Definition kp_wk : kpar := KP 1 0 0 0 0 9 27 1199 167 (zeros 48) (zeros 512) (tesla stamp 0 (zeros 48) 96 121 key_wk (604800 * 1200)).
Definition s_wk : ost stamp := set_kp kp_wk (set_stat (STT true true false false false false) (osnma_new (C := stamp) [(1, zeros 16)] None)).
