(** C25: erasure decoding of Galileo HAS pages (cssr_has.py:162-172), over any field. *)
From Verif Require Import HasModel HasSpec HasProofs HasField.
From mathcomp Require Import all_ssreflect all_algebra.
Import GRing.Theory.
Local Open Scope ring_scope.

(** When the rows of the generator matrix selected by the received pages are invertible, the
    erasure decoder returns the message (followed by zero pages when more pages than needed were
    used). *)
Theorem C25_erasure (F : fieldType) (b2f : Z -> F) (f2b : F -> Z) (G : list (list Z)) :
  cancel f2b b2f -> f2b 0 = Z0 ->
  forall msg idx rows, List.Forall (Z.le Z0) idx ->
  msg_ok b2f f2b msg -> (length msg <= length idx)%N ->
  rows = List.map (enc_page b2f f2b G msg) idx ->
  invertible b2f G idx ->
  solve_gf b2f f2b G idx rows = Some (pad (length idx) msg).
Proof. exact (fun bK b0 msg idx rows => @solve_encoded F b2f f2b G bK b0 msg idx rows). Qed.
Print Assumptions C25_erasure.

(** Together with the page collection (C24): pages that are encodings of messages deliver the
    messages. *)
Theorem C25_end_to_end (F : fieldType) (b2f : Z -> F) (f2b : F -> Z) (G : list (list Z)) :
  cancel f2b b2f -> f2b 0 = Z0 ->
  forall (Msgs : Z -> list (list Z)) h c m s',
  List.Forall complete (h ++ [:: c])%list ->
  (forall p, List.In p (hist_pages (h ++ [:: c])%list) ->
     p_pid p <> Z0 /\ msg_ok b2f f2b (Msgs (p_mid p)) /\ p_ms p = Z.of_nat (length (Msgs (p_mid p))) /\
     p_data p = enc_page b2f f2b G (Msgs (p_mid p)) (Z.sub (p_pid p) (Zpos xH))) ->
  decode_cnav (solve_gf b2f f2b G) c (fst (cnav_run (solve_gf b2f f2b G) h)) = (s', Some (Some m)) ->
  exists p k, List.In p (hist_pages (h ++ [:: c])%list) /\
    snd (cnav_run (solve_gf b2f f2b G) (h ++ [:: c])%list) =
      (snd (cnav_run (solve_gf b2f f2b G) h) ++ [:: (p_mid p, m)])%list /\
    (length (Msgs (p_mid p)) <= k <= 32)%N /\ m = pad k (Msgs (p_mid p)).
Proof. exact (fun bK b0 Msgs h c m s' => @has_end_to_end F b2f f2b G bK b0 Msgs h c m s'). Qed.
Print Assumptions C25_end_to_end.

(** a field of 256 elements with such a byte representation exists *)
Theorem C25_field : exists (F : finFieldType) (b2f : Z -> F) (f2b : F -> Z),
  #|F| = 256%N /\ cancel f2b b2f /\ f2b 0 = Z0 /\ f2b 1 = Zpos xH /\
  forall b, Z.le Z0 b /\ Z.lt b (Z.of_nat 256) -> f2b (b2f b) = b.
Proof. exact gf256_exists. Qed.
Print Assumptions C25_field.

(** Two pages received in the wrong order, generator rows (1, 0) and (1, 1). *)
Definition G2 : list (list Z) := [:: [:: Zpos xH; Z0]; [:: Zpos xH; Zpos xH]].
Example C25_case (F : fieldType) (b2f : Z -> F) (f2b : F -> Z) :
  cancel f2b b2f -> f2b 0 = Z0 -> f2b 1 = Zpos xH -> forall a b : Z, f2b (b2f a) = a -> f2b (b2f b) = b ->
  let msg := [:: List.repeat a 53; List.repeat b 53] in
  let idx := [:: Zpos xH; Z0] in
  invertible b2f G2 idx /\
  solve_gf b2f f2b G2 idx (List.map (enc_page b2f f2b G2 msg) idx) = Some msg.
Proof.
  move=> bK b0 b1 a b Ha Hb msg idx.
  have e0 : b2f Z0 = 0 by rewrite -b0 bK.
  have e1 : b2f (Zpos xH) = 1 by rewrite -b1 bK.
  have Hinv : invertible b2f G2 idx.
  { split=> //.
    pose E : 'M[F]_2 := \matrix_(i, j) (if (i == 0) && (j == 0) then 0 else if (i == 1) && (j == 1) then -1 else 1).
    refine (proj1 (@mulmx1_unit _ _ _ E _)).
    apply/matrixP=> i j. rewrite !mxE !big_ord_recl big_ord0 !mxE /grow.
    case: i => [[|[|i]] Hi] //; case: j => [[|[|j]] Hj] //=;
      rewrite ?e0 ?e1 ?mul1r ?mul0r ?mulr0 ?mulr1 ?addr0 ?add0r ?subrr //. }
  split=> //. rewrite (@C25_erasure _ _ _ G2 bK b0 msg idx) //; first by repeat constructor; lia.
  rewrite /msg_ok. repeat (apply List.Forall_cons || apply List.Forall_nil); split; try (by rewrite List.repeat_length);
  apply List.Forall_forall => x Hx; apply List.repeat_spec in Hx; by subst x.
Qed.
