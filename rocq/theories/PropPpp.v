(** Theorems about the PPP filter's state layout, noise vectors, options and ambiguity bookkeeping. *)
From Verif Require Import Base SatModel PppModel PppSpec PppProofs.
Open Scope Z_scope.
Notation length := List.length.

(* ---------- C30 ---------- *)
(** every estimated quantity has its own slot of the state vector, every slot belongs to one
    quantity, and exactly the ambiguities lie beyond nav.na *)
Theorem C30_layout_partial : forall o, iono_opt o = 1 \/ trop_opt o <> 1 ->
  (forall st, present o st -> exists k, slot o st = Some k /\ 0 <= k < nx o /\
     (k < na o <-> match st with Amb _ _ => False | _ => True end)) /\
  (forall a b, present o a -> present o b -> slot o a = slot o b -> a = b) /\
  (forall k, 0 <= k < nx o -> exists st, present o st /\ slot o st = Some k).
Proof. exact layout. Qed.
Print Assumptions C30_layout_partial.
Example C30_case : slot (PO 1 1 1 2) Trop = Some 6 /\ slot (PO 1 1 1 2) (Iono 1) = Some 7 /\
  slot (PO 1 1 1 2) (Iono 233) = Some 239 /\ slot (PO 1 1 1 2) (Amb 1 0) = Some 240 /\
  slot (PO 1 1 1 2) (Amb 233 1) = Some 705 /\ nx (PO 1 1 1 2) = 706 /\ present (PO 1 1 1 2) (Amb 233 1).
Proof. vm_compute. repeat split; discriminate. Qed.
(** full statement: the same without the premise.  It fails when the zenith delay is estimated and the
    slant delays are not: IT() is negative and numpy wraps it into an ambiguity. *)
Theorem C30_layout_refuted : exists o, exists s f, present o Trop /\ present o (Amb s f) /\
  slot o Trop = slot o (Amb s f).
Proof. exists (PO 0 1 0 1), 4, 0. vm_compute. repeat split; discriminate. Qed.
Print Assumptions C30_layout_refuted.

(* ---------- C56 ---------- *)
Theorem C56_initial_partial : forall V (z p v t : V) o, 0 <= pmode o -> iono_opt o = 1 \/ trop_opt o <> 1 ->
  exists d, diag0 z o p v t = Some d /\ Z.of_nat (length d) = nx o /\
  forall st, present o st -> nth (Z.to_nat (address o st)) d z =
    match st with Pos _ => p | Vel _ => v | Trop => t | Iono _ => z | Amb _ _ => z end.
Proof. exact diag_ok. Qed.
Print Assumptions C56_initial_partial.
Theorem C56_noise_partial : forall V (z qp qv qz qi qb : V) o, 0 <= pmode o -> (iono_opt o = 1 <-> trop_opt o = 1) ->
  exists q, qvec z o qp qv qz qi qb = Some q /\ Z.of_nat (length q) = na o /\
  forall st, present o st -> match st with Amb _ _ => True | _ => nth (Z.to_nat (address o st)) q z =
    match st with Pos _ => qp | Vel _ => qv | Trop => qz | Iono _ => qi | Amb _ _ => qb end end.
Proof. exact q_ok. Qed.
Print Assumptions C56_noise_partial.
Example C56_case :
  option_map (fun d => (firstn 8 d, nth 705 d 99)) (diag0 0 (PO 1 1 1 2) 10 20 30) = Some ([10;10;10;20;20;20;30;0], 0) /\
  option_map (fun q => (firstn 8 q, nth 239 q 99, length q)) (qvec 0 (PO 1 1 1 2) 1 2 3 4 5) = Some ([1;1;1;2;2;2;3;4], 4, 240%nat).
Proof. vm_compute. split; reflexivity. Qed.
(** full statement: every estimated quantity gets its process noise.  The setting sig_qb never has any
    effect, and without a zenith delay the first satellite's slant delay gets none. *)
Theorem C56_ambiguity_refuted : forall V (z qp qv qz qi qb qb' : V) o, 0 <= pmode o ->
  qvec z o qp qv qz qi qb = qvec z o qp qv qz qi qb'.
Proof. exact q_no_amb. Qed.
Print Assumptions C56_ambiguity_refuted.
Theorem C56_noise_refuted : exists o q s, iono_opt o = 1 /\ present o (Iono s) /\
  qvec 0 o 1 2 3 4 5 = Some q /\ nth (Z.to_nat (address o (Iono s))) q 0 = 0.
Proof.
  exists (PO 0 0 1 1), ([1;1;1;0] ++ repeat 4 232), 1. vm_compute. repeat split; discriminate.
Qed.
Print Assumptions C56_noise_refuted.

(* ---------- C58 ---------- *)
(** a positive option takes effect; with a dictionary of one's own the shared default is not touched *)
Theorem C58_options_partial : forall g c t i p n, 0 < t -> 0 < i -> 0 < p ->
  let '(g', _, n') := mk_ppp g c t i p n in
  n_trop n' = t /\ n_iono n' = i /\ n_phw n' = p /\ (c <> None -> g' = g).
Proof.
  intros g c t i p n T I P. unfold mk_ppp, take_opts, override. 
  replace (t >? 0) with true by (symmetry; apply Z.gtb_lt; exact T).
  replace (i >? 0) with true by (symmetry; apply Z.gtb_lt; exact I).
  replace (p >? 0) with true by (symmetry; apply Z.gtb_lt; exact P).
  destruct c; cbn; repeat split; congruence.
Qed.
Print Assumptions C58_options_partial.
(** options left at their default -1 come from the dictionary given *)
Theorem C58_config : forall g t i p s n,
  mk_ppp g (Some (PC (Some t) (Some i) (Some p) (Some s))) (-1) (-1) (-1) n =
    (g, Some (PC (Some t) (Some i) (Some p) (Some s)), NO t i p (Some s)).
Proof. reflexivity. Qed.
Print Assumptions C58_config.
Example C58_case : snd (mk_ppp default0 None 2 2 2 nav0) = NO 2 2 2 None /\
  snd (mk_ppp default0 (Some (PC (Some 0) None (Some 1) None)) (-1) 2 (-1) nav0) = NO 0 2 1 None.
Proof. split; reflexivity. Qed.
(** full statement: an explicitly given option takes effect for that object and no other.  Zero does not
    take effect: rtkpos passes 0 for all three and estimates both delays ... *)
Theorem C58_zero_refuted : exists g n, n_trop (snd (mk_rtk g None n)) = 1 /\ n_iono (snd (mk_rtk g None n)) = 1 /\
  n_phw (snd (mk_rtk g None n)) = 1.
Proof. exists default0, nav0. repeat split. Qed.
Print Assumptions C58_zero_refuted.
(** ... an option given to one object changes the next object, which gives none ... *)
Theorem C58_leak_refuted : exists g n, snd (mk_ppp g None (-1) (-1) (-1) n) <>
  snd (mk_ppp (fst (fst (mk_ppp g None 2 2 2 n))) None (-1) (-1) (-1) n).
Proof. exists default0, nav0. discriminate. Qed.
Print Assumptions C58_leak_refuted.
(** ... and the documented default of ppprtkpos raises, although pppos accepts it. *)
Theorem C58_ppprtk_refuted : forall g n, mk_ppprtk g None n = None.
Proof. reflexivity. Qed.
Print Assumptions C58_ppprtk_refuted.
(** the shared default does not define the carrier-smoothing switch *)
Theorem C58_csmooth_refuted : forall t i p, n_csm (snd (mk_ppp default0 None t i p nav0)) = None.
Proof. reflexivity. Qed.
Print Assumptions C58_csmooth_refuted.

(* ---------- C55 ---------- *)
(** the pairs are, per constellation and frequency, the lowest-numbered eligible satellite with each
    other eligible one, each once; nav.fix is 2 exactly for the eligible ones *)
Theorem C55_pairs : forall F (is0 : F -> bool) x na nf vsat el mask sats ix t,
  ddidx is0 x na nf vsat el mask sats = Some (ix, t) ->
  NoDup ix /\
  (forall i j, In (i, j) ix <-> exists m f s0 s, 0 <= f < Z.of_nat nf /\
     (eligible is0 x na vsat el mask sats m f s0 /\
      forall s', eligible is0 x na vsat el mask sats m f s' -> s0 <= s') /\
     eligible is0 x na vsat el mask sats m f s /\ s <> s0 /\
     i = na + 233 * f + s0 - 1 /\ j = na + 233 * f + s - 1) /\
  (forall s f, t s f = 2 <-> 0 <= f < Z.of_nat nf /\
     eligible is0 x na vsat el mask sats (fst (sat2prn s)) f s).
Proof. exact (fun F => @ddidx_ok F). Qed.
Print Assumptions C55_pairs.
(** it returns whenever satellites times frequencies do not exceed 233 *)
Theorem C55_defined_partial : forall F (is0 : F -> bool) x na nf vsat el mask sats,
  Z.of_nat nf * Z.of_nat (length sats) <= 233 -> ddidx is0 x na nf vsat el mask sats <> None.
Proof. exact (fun F => @ddidx_defined F). Qed.
Print Assumptions C55_defined_partial.
(** full statement: for any number of satellites.  It fails: the index array has 233 rows for all
    frequencies together. *)
Theorem C55_defined_refuted : exists x sats,
  ddidx (fun v => v =? 0) x 3 3 (fun _ _ => 1) (fun _ => 30) 20 sats = None.
Proof. exists (fun _ => 1), (map Z.of_nat (seq 1 90)). vm_compute. reflexivity. Qed.
Print Assumptions C55_defined_refuted.
(** restored ambiguities reproduce the integers of every pair; the real-valued part is nav.xa and the
    ambiguities that are in no pair's second place keep their float value *)
Theorem C55_restore : forall F (is0 : F -> bool) (sub : F -> F -> F), (forall a b, sub a (sub a b) = b) ->
  forall x na nf vsat el mask sats ix t xfix bias, 0 <= na ->
  ddidx is0 x na nf vsat el mask sats = Some (ix, t) -> length bias = length ix ->
  exists xa, restamb sub x na nf t xfix bias = Some xa /\
  (forall r i j v, nth_error ix r = Some (i, j) -> nth_error bias r = Some v -> sub (xa i) (xa j) = v) /\
  (forall k, 0 <= k < na -> xa k = xfix k) /\
  (forall k, na <= k -> (forall i, ~ In (i, k) ix) -> xa k = x k).
Proof. exact (fun F is0 sub H x na nf vsat el mask sats => @restamb_ok F is0 x na nf vsat el mask sats sub H). Qed.
Print Assumptions C55_restore.
(** fix-and-hold constrains exactly the fixed pairs, with the difference of the two solutions as residual *)
Theorem C55_hold : forall F (is0 : F -> bool) (sub : F -> F -> F) x na nf vsat el mask sats ix t xa,
  ddidx is0 x na nf vsat el mask sats = Some (ix, t) ->
  fst (holdamb sub x na nf t xa) =
    map (fun ij => (fst ij, snd ij, sub (sub (xa (fst ij)) (xa (snd ij))) (sub (x (fst ij)) (x (snd ij))))) ix /\
  (forall s f, t s f = 2 -> snd (holdamb sub x na nf t xa) s f = 3) /\
  (forall s f, t s f <> 2 -> snd (holdamb sub x na nf t xa) s f = t s f).
Proof. exact (fun F is0 sub x na nf vsat el mask sats => @holdamb_ok F is0 x na nf vsat el mask sats sub). Qed.
Print Assumptions C55_hold.

(** GPS 1, 3, 5 (5 is low), GAL 33, 35; the ambiguity of GAL 35 on the second frequency is not initialised *)
Definition ex_x (k : Z) : Z := if k =? 3 + 233 + 34 then 0 else 100 + k.
Definition ex_el (s : Z) : Z := if s =? 5 then 10 else 40.
Definition ex_dd := ddidx (fun v => v =? 0) ex_x 3 2 (fun _ _ => 1) ex_el 20 [35; 1; 5; 33; 3].
Example C55_case : option_map fst ex_dd = Some [(3, 5); (236, 238); (35, 37)] /\
  (do p <- ex_dd; do xa <- restamb Z.sub ex_x 3 2 (snd p) (fun k => 7 * k) [11; 12; 13];
     Some (map xa [1; 3; 5; 236; 238; 35; 37; 7])) = Some [7; 103; 92; 336; 324; 135; 122; 107] /\
  (do p <- ex_dd; Some (fst (holdamb Z.sub ex_x 3 2 (snd p) (fun k => 2 * ex_x k)))) =
     Some [(3, 5, -2); (236, 238, -2); (35, 37, -2)].
Proof. vm_compute. repeat split. Qed.
