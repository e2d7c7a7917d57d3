(** Properties C14, C15, C16, C17: bit-level helpers. *)
From Verif Require Import Base BaseFacts BitModel BitProofs.
From Coq Require Import Sorted.
Open Scope Z_scope.

(** C14: copy_buff moves exactly the addressed bits, and succeeds exactly when both ranges fit.
    [copied src dst dst' os od n]: same length, bit k of dst' is bit os+(k-od) of src inside
    [od, od+n) and bit k of dst elsewhere. *)
Theorem C14_copy_buff :
  (forall src dst os od n, (os + n <= length src)%nat -> (od + n <= length dst)%nat ->
     exists dst', copy_buff src dst os od n = Some dst' /\
       length dst' = length dst /\
       (forall k, nth k dst' false =
          if (od <=? k)%nat && (k <? od + n)%nat then nth (os + (k - od)) src false
          else nth k dst false)) /\
  (forall src dst os od n dst', copy_buff src dst os od n = Some dst' ->
     n = 0%nat \/ (os + n <= length src)%nat /\ (od + n <= length dst)%nat).
Proof. exact (conj copy_buff_fits copy_buff_only_fits). Qed.
Print Assumptions C14_copy_buff.
Example C14_case :
  let src := bitsof 48 0x123456789abc in let dst := bitsof 56 0 in
  (4 + 41 <= length src)%nat /\ (9 + 41 <= length dst)%nat /\
  option_map bval (copy_buff src dst 4 9 41) = Some ((0x123456789abc / 8) mod 2 ^ 41 * 64).
Proof. vm_compute. repeat split; lia. Qed.

(** C15: masks. *)
Theorem C15_decode_mask_spec : forall din n o,
  StronglySorted Z.lt (fst (decode_mask din n o)) /\
  snd (decode_mask din n o) = Z.of_nat (length (fst (decode_mask din n o))) /\
  (forall p, In p (fst (decode_mask din n o)) <->
     o <= p < o + Z.of_nat n /\ Z.testbit din (Z.of_nat n - 1 - (p - o)) = true).
Proof. exact (fun din n o => conj (decode_mask_sorted din n o) (conj (decode_mask_count din n o) (decode_mask_in din n o))). Qed.
Print Assumptions C15_decode_mask_spec.

Theorem C15_encode_decode : forall d n o, 0 <= d < 2 ^ Z.of_nat n ->
  encode_mask (fst (decode_mask d n o)) n o = Some d.
Proof. exact encode_decode. Qed.
Print Assumptions C15_encode_decode.

Theorem C15_decode_encode : forall v n o,
  StronglySorted Z.lt v -> (forall p, In p v -> o <= p < o + Z.of_nat n) ->
  exists d, encode_mask v n o = Some d /\ 0 <= d < 2 ^ Z.of_nat n /\
    decode_mask d n o = (v, Z.of_nat (length v)).
Proof. exact decode_encode. Qed.
Print Assumptions C15_decode_encode.

(** unsorted or repeated positions: the set survives *)
Theorem C15_decode_encode_set : forall v n o,
  (forall p, In p v -> o <= p < o + Z.of_nat n) ->
  exists d, encode_mask v n o = Some d /\ 0 <= d < 2 ^ Z.of_nat n /\
    (forall p, In p (fst (decode_mask d n o)) <-> In p v).
Proof. exact decode_encode_in. Qed.
Print Assumptions C15_decode_encode_set.

Theorem C15_encode_mask_error : forall v n o p,
  In p v -> o + Z.of_nat n <= p -> encode_mask v n o = None.
Proof. exact encode_mask_error. Qed.
Print Assumptions C15_encode_mask_error.
Example C15_case : decode_mask 0x8000000000000005 64 1 = ([1; 62; 64], 3) /\
  encode_mask [1; 62; 64] 64 1 = Some 0x8000000000000005 /\ encode_mask [65] 64 1 = None.
Proof. vm_compute. auto. Qed.

(** C16: [w] is the raw [n]-bit pattern, [sgn n w] its two's complement value. *)
Theorem C16_sval : forall n w, (2 <= n)%nat -> 0 <= w < 2 ^ Z.of_nat n ->
  let half := 2 ^ (Z.of_nat n - 1) in
  sval      (sgn n w) n = (if w =? half then None else Some (sgn n w)) /\
  sval_has  (sgn n w) n = (if (w =? half) || (w =? half - 1) then None else Some (sgn n w)) /\
  sval_bds  (sgn n w) n = (if (w =? half) || (w =? half + 1) then None else Some (sgn n w)) /\
  sval_sbas (sgn n w) n = (if w =? half - 1 then None else Some (sgn n w)).
Proof. exact (fun n w Hn Hw => conj (sval_ok_cssr n w Hn Hw) (conj (sval_ok_has n w Hn Hw)
  (conj (sval_ok_bds n w Hn Hw) (sval_ok_sbas n w Hn Hw)))). Qed.
Print Assumptions C16_sval.

Theorem C16_sval_injective : forall n a b v, (2 <= n)%nat ->
  0 <= a < 2 ^ Z.of_nat n -> 0 <= b < 2 ^ Z.of_nat n ->
  (sval (sgn n a) n = Some v -> sval (sgn n b) n = Some v -> a = b) /\
  (sval_has (sgn n a) n = Some v -> sval_has (sgn n b) n = Some v -> a = b) /\
  (sval_bds (sgn n a) n = Some v -> sval_bds (sgn n b) n = Some v -> a = b) /\
  (sval_sbas (sgn n a) n = Some v -> sval_sbas (sgn n b) n = Some v -> a = b).
Proof. exact (fun n a b v Hn Ha Hb => conj (sval_ok_inj _ _ sval_ok_cssr n a b v Hn Ha Hb)
  (conj (sval_ok_inj _ _ sval_ok_has n a b v Hn Ha Hb)
  (conj (sval_ok_inj _ _ sval_ok_bds n a b v Hn Ha Hb)
        (sval_ok_inj _ _ sval_ok_sbas n a b v Hn Ha Hb)))). Qed.
Print Assumptions C16_sval_injective.
Example C16_case : sval (sgn 15 0x4000) 15 = None /\ sval (sgn 15 0x7fff) 15 = Some (-1) /\
  sval_has (sgn 13 0xfff) 13 = None /\ sval_sbas (sgn 8 0x80) 8 = Some (-128).
Proof. vm_compute. auto. Qed.
