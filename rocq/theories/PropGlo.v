(** NavIC LNAV, GLONASS FDMA and CDMA, SBAS message 9: ephemerides assembled from messages. *)
From Verif Require Import SatModel TimeModel TimeSpec TimeAdjust CssrState RawModel RawSpec NavSpec GloModel GloSpec GloFacts GloIrn GloFdma GloCdma GloSbs Base FieldSpec PropRaw.
From Coq Require Import Lia ZifyBool.
Notation length := List.length.
Open Scope Z_scope.

(** C81: after any sequence of NavIC subframes of all satellites, a subframe numbered 0 to 2 returns what the
    subframes 1 and 2 last received from its satellite say - consecutive by their time counts, every parameter
    exactly as sent, the week completed to the one nearest to the receiver's - and any other returns nothing.
    Partial: before the first subframe 1 a subframe 2 of count 1 must not come; the time of ephemeris stays in the
    week of transmission, and the time of transmission is moved the other way ([far_week]). *)
Theorem C81_irn_partial h e : Forall iev_ok h -> iev_ok e ->
  let l k := last_of (iwant (ie_prn e) k) (h ++ [e]) in
  l 0 <> None \/ (forall f, l 1 = Some f -> i_tow f <> 1) ->
  exists d d', ifeeds h irn_new = Some d /\
    ifeed e d = Some (d', if ino (i_sub (ie_frame e)) <=? 2
                          then irn_of (prn2sat IRN (ie_prn e)) (ie_week e) (fun w _ _ => w) far_week (l 0, l 1) else None).
Proof. exact (irn_hist h e). Qed.
Print Assumptions C81_irn_partial.
(** the week reported; the times are right when those of clock and ephemeris lie within half a week *)
Theorem C81_cycle wn week : (exists n, near_cycle wn week = wn + 1024 * n) /\ week - 512 < near_cycle wn week <= week + 512.
Proof. exact (cycle_ok wn week). Qed.
Print Assumptions C81_cycle.
Theorem C81_week sat week f1 f2 : (match i_sub f1, i_sub f2 with
    | IA wn _ _ _ _ toc _ _ _ _ _ _ _ _ _ _ _ _, IB _ toe _ _ _ _ _ _ =>
        Z.abs (16 * toe - 12 * i_tow f1) <= 302400 /\ Z.abs (16 * toc - 12 * i_tow f1) <= 302400
    | _, _ => True end) ->
  irn_of sat week (fun w _ _ => w) far_week (Some f1, Some f2) = irn_of sat week near_week (fun w _ _ => w) (Some f1, Some f2).
Proof. exact (irn_week sat week f1 f2). Qed.
Print Assumptions C81_week.
Definition ia (tow toc : Z) : iframe := IF_ 139 tow 0 0 (IA 1000 (-5) 7 (-1) 3 toc (-9) 1234 77 0 1 (-11) 12 (-13) 14 (-15) 16 (-17)) 0.
Definition ib (tow toe : Z) : iframe := IF_ 139 tow 0 0 (IB (-123456) toe 98765 2700000000 (-222) 333 (-444) 555) 0.
Definition ex_irn (l : list iev) (e : iev) : option (option eph) := do d <- ifeeds l irn_new; do r <- ifeed e d; Some (snd r).
Ltac oki := repeat apply Forall_cons; [..|apply Forall_nil]; vm_compute; intuition discriminate.
Example C81_ex : let h := [IE 3 2023 (ia 100 80) []; IE 5 2023 (ia 100 81) []] in let e := IE 3 2023 (ib 101 90) [true] in
  Forall iev_ok (h ++ [e]) /\ (let l k := last_of (iwant 3 k) (h ++ [e]) in l 0 = Some (ia 100 80) /\ l 1 = Some (ib 101 90)) /\
  option_map (option_map (fun x => [attr Fweek x; attr Ftoes x; attr Faf0 x; attr Fdeln x; attr Fi0 x; attr Ftoe x])) (ex_irn h e) =
  Some (Some [Some (I 2024); Some (I 1440); Some (V (-5) 31); Some (Sc 1234 41); Some (Sc 555 31); Some (T (at_week gps0 2024 1440))]).
Proof. cbv zeta. split; [oki|]. vm_compute. repeat split. Qed.
Example C81_ex_gap : ex_irn [IE 3 2023 (ia 100 80) []] (IE 3 2023 (ib 102 90) []) = Some None.
Proof. vm_compute. reflexivity. Qed.
(** across the turn of the week: sent in the last seconds of week 2023 with a time of ephemeris at the start of the
    next, the ephemeris is put a week early and its transmission a week early too *)
Theorem C81_week_refuted : exists h e f1 f2, Forall iev_ok (h ++ [e]) /\
  (let l k := last_of (iwant (ie_prn e) k) (h ++ [e]) in l 0 = Some f1 /\ l 1 = Some f2) /\
  option_map (option_map (fun x => (attr Ftoe x, attr Ftot x))) (ex_irn h e) =
    Some (Some (Some (T (at_week gps0 2024 0)), Some (T (at_week gps0 2023 604776)))) /\
  option_map (fun x => (attr Ftoe x, attr Ftot x)) (irn_of (prn2sat IRN (ie_prn e)) (ie_week e) near_week (fun w _ _ => w) (Some f1, Some f2)) =
    Some (Some (T (at_week gps0 2025 0)), Some (T (at_week gps0 2024 604776))).
Proof.
  exists [IE 3 2024 (ia 50398 37800) []], (IE 3 2024 (ib 50399 0) []), (ia 50398 37800), (ib 50399 0). split; [oki|]. vm_compute. repeat split.
Qed.
Print Assumptions C81_week_refuted.
(** before any subframe 1 the empty buffer passes for one of count 0: a single subframe 2 of count 1 returns an
    ephemeris whose clock, health and issue are all zero *)
Theorem C81_zero_refuted : exists e, iev_ok e /\ last_of (iwant (ie_prn e) 0) [e] = None /\
  option_map (option_map (fun x => [attr Faf0 x; attr Fiode x; attr Fsvh x; attr Fidot x])) (ex_irn [] e) =
  Some (Some [Some (V 0 31); Some (I 0); Some (I 0); Some (Sc 0 43)]).
Proof. exists (IE 3 2024 (ib 1 90) []). split; [vm_compute; intuition discriminate|]. vm_compute. repeat split. Qed.
Print Assumptions C81_zero_refuted.

(** C82: after any sequence of GLONASS FDMA strings of all satellites, each of the strings 1 to 5 returns the
    ephemeris of the strings 1 to 4 last received from its satellite, if they came at intervals of two seconds, with
    the two time differences of the last string 5; every number is what sign and magnitude say, and the two times
    are, in UTC of three hours before the sent Moscow time, those nearest to the reception.  Other strings return
    nothing. *)
Theorem C82_fdma h e : Forall fev_ok h -> fev_ok e ->
  let t := 86400 * gps0 + 604800 * fe_week e + fe_time e in
  let l k := last_of (fwant (fe_prn e) k) (h ++ [e]) in
  exists d d' tod, ffeeds h [] = Some d /\ (forall x, -10800 <= x < 75600 -> nearest 86400 t x (tod x)) /\
    ffeed e d = Some (d', if (1 <=? gno (g_str (fe_str e))) && (gno (g_str (fe_str e)) <=? 5) then
      fdma_of (prn2sat GLO (fe_prn e)) (fe_freq e) (t - fe_time e mod 86400) tod (l 1, l 2, l 3, l 4, l 5) else None).
Proof. exact (fdma_near h e). Qed.
Print Assumptions C82_fdma.
(** so a time of day less than half a day from the reception is recovered whatever day it belongs to *)
Theorem C82_truth t x r u : nearest 86400 t x r -> (u - x) mod 86400 = 0 -> Z.abs (u - t) < 43200 -> r = u.
Proof.
  intros H M B. destruct (nearest_unique 86400 t x r u ltac:(lia) H) as [E|[_ E]]; [|exact E|lia].
  split; [exists ((u - x) / 86400)|]; clear - M B; lia.
Qed.
Print Assumptions C82_truth.
Definition g1 : gstring := GS 0 (G1 0 1 0 10 1 (Sm 1 1000) (Sm 0 3) (Sm 1 20000000)) 5.
Definition g2 : gstring := GS 0 (G2 1 1 1 0 (Sm 0 2000) (Sm 1 0) (Sm 0 30000000)) 0.
Definition g3 : gstring := GS 0 (G3 1 (Sm 1 77) 0 2 0 (Sm 0 3000) (Sm 1 4) (Sm 1 40000000)) 0.
Definition g4 : gstring := GS 0 (G4 (Sm 1 123456) (Sm 0 3) 7 0 1 5 0 300 11 1) 0.
Definition g5 : gstring := GS 0 (G5 300 (Sm 1 99) 0 7 (Sm 0 55) 0) 0.
Definition gfld_eq_dec (a b : gfld) : {a = b} + {a <> b}.
Proof. decide equality; apply Z.eq_dec. Defined.
Definition gattr (a : gfld) (e : geph) : list val := flat_map (fun p => if gfld_eq_dec (fst p) a then [snd p] else []) e.
Definition ex_fdma (l : list fev) (e : fev) : option (option geph) := do d <- ffeeds l []; do r <- ffeed e d; Some (snd r).
(** ten past midnight in Moscow is ten past nine the evening before *)
Example C82_ex : let h := [FE 4 2300 76228 1 g5 []; FE 4 2300 76240 1 g1 []; FE 9 2300 76240 1 g4 []; FE 4 2300 76242 1 g2 []; FE 4 2300 76244 1 g3 []] in
  let e := FE 4 2300 76246 1 g4 [true] in
  Forall fev_ok (h ++ [e]) /\
  option_map (option_map (fun x => map (fun a => gattr a x) [Gtaun; Gpos 0; Gvel 1; Gacc 2; Gtauc; Gsvh; Giode; Gflag; Gtof; Gtoes])) (ex_fdma h e) =
  Some (Some [[V (-123456) 30]; [V (-20000000000) 11]; [V 2000000 20]; [V (-4000) 30]; [V (-99) 31]; [I 1]; [I 1]; [I 246];
    [T (GT (86400 * gps0 + 604800 * 2300 + 76230 + 18) 0)]; [I 76500]]).
Proof. cbv zeta. split; [oki|]. vm_compute. repeat split. Qed.
Example C82_ex_gap : ex_fdma [FE 4 2300 76240 1 g1 []; FE 4 2300 76242 1 g2 []; FE 4 2300 76246 1 g3 []] (FE 4 2300 76248 1 g4 []) = Some None.
Proof. vm_compute. reflexivity. Qed.
(** only the second of the week is kept with a string: strings a week apart make an ephemeris *)
Theorem C82_mixed_refuted : exists h e x, Forall fev_ok (h ++ [e]) /\ Forall (fun f => fe_week f = fe_week e - 1) h /\ ex_fdma h e = Some (Some x).
Proof.
  exists [FE 4 2299 76240 1 g1 []; FE 4 2299 76242 1 g2 []; FE 4 2299 76244 1 g3 []], (FE 4 2300 76246 1 g4 []). eexists.
  split; [oki|]. split; [repeat constructor|]. vm_compute. reflexivity.
Qed.
Print Assumptions C82_mixed_refuted.

(** C83: after any sequence of GLONASS L3OC messages of all satellites, each message of type 10, 11, 12, 16 or 25
    returns the ephemeris of the messages 10, 11 and 12 last received from its satellite, turned by the last message
    16 if there was one; for L1OC each of type 10, 11 or 12.  Partial: nothing says that the three messages belong
    together, and L1OC drops the last six bits of the second velocity. *)
Theorem C83_l3oc_partial h e : Forall (kev_ok L3) h -> kev_ok L3 e ->
  let n := kno (k_body (ke_msg e)) in
  let l k := last_of (kwant (ke_prn e) k) (h ++ [e]) in
  exists d d', kfeeds L3 h [] = Some d /\
    kfeed L3 e d = Some (d', if (n =? 10) || (n =? 11) || (n =? 12) || (n =? 16) || (n =? 25)
                             then cdma_of L3 (prn2sat GLO (ke_prn e)) smv (l 10, l 11, l 12, l 16) else None).
Proof.
  intros Hh He n l. destruct (cdma_any L3 h e Hh He) as (d & d' & E1 & E2). exists d, d'. split; [exact E1|]. rewrite E2. do 2 f_equal.
  unfold kres, kemit. fold n. rewrite orb_assoc. reflexivity.
Qed.
Print Assumptions C83_l3oc_partial.
Theorem C83_l1oc_partial h e : Forall (kev_ok L1) h -> kev_ok L1 e ->
  let n := kno (k_body (ke_msg e)) in
  let l k := last_of (kwant (ke_prn e) k) (h ++ [e]) in
  exists d d', kfeeds L1 h [] = Some d /\
    kfeed L1 e d = Some (d', if (n =? 10) || (n =? 11) || (n =? 12)
                             then cdma_of L1 (prn2sat GLO (ke_prn e)) (fun v => smv (Sm (neg v) (64 * (mag v / 64)))) (l 10, l 11, l 12, None) else None).
Proof.
  intros Hh He n l. destruct (cdma_any L1 h e Hh He) as (d & d' & E1 & E2). exists d, d'. split; [exact E1|]. rewrite E2. do 2 f_equal.
  unfold kres, kemit. fold n. rewrite orb_false_r. destruct ((n =? 10) || (n =? 11) || (n =? 12)); [|reflexivity].
  replace (last_of (kw L1 (ke_prn e) 16) (h ++ [e])) with (@None kmsg); [reflexivity|]. symmetry. clear. induction (h ++ [e]) as [|a r IH]; [reflexivity|]. cbn. now rewrite IH.
Qed.
Print Assumptions C83_l1oc_partial.
Definition kx (v : smag) (k : Z) (ts : Z) (x : Z) : kmsg := KM (SV 7 0 1 2 1 1 0 ts) (match k with
  | 10 => K10 8 300 1 20 x 4 5 1 2 (Sm 1 3) (Sm 0 4) (Sm 1 99999) (Sm 0 11) (Sm 1 5) (Sm 0 66666) (Sm 1 7)
  | 11 => K11 (Sm 1 12345678901) (Sm 0 22345678901) (Sm 1 1) (Sm 0 44444) v
  | 12 => K12 (Sm 1 5555) (Sm 0 1) (Sm 1 2) (Sm 0 3) (Sm 1 4) (Sm 0 5) (Sm 1 6) (Sm 1 700) (Sm 0 800)
  | 16 => K16 x 200 1 300 400 500 600 700
  | _ => Kx k 5 end).
Definition pad : bits := repeat false 200.
Definition ex_cdma (x : band) (l : list kev) (e : kev) : option (option geph) := do d <- kfeeds x l []; do r <- kfeed x e d; Some (snd r).
Ltac okk := repeat apply Forall_cons; [..|apply Forall_nil]; (split; [vm_compute; split; discriminate|]; split; [vm_compute; intuition discriminate|]; vm_compute; repeat constructor).
Example C83_ex : let v := Sm 1 1000001 in let h := [KE 7 (kx v 10 1000 33) pad; KE 7 (kx v 16 1001 321) pad; KE 8 (kx v 11 1001 33) pad; KE 7 (kx v 12 1001 0) pad] in
  let e := KE 7 (kx v 11 1002 0) pad in
  Forall (kev_ok L3) (h ++ [e]) /\
  option_map (option_map (fun x => map (fun a => gattr a x) [Gtaun; Gpos 0; Gvel 1; Gacc 1; Gisc 2; Gsrc; Gtin; Gpsi; Gtoe; Gtof])) (ex_cdma L3 h e) =
  Some (Some [[V (-99999) 38]; [V (-12345678901000) 20]; [V (-1000001000) 30]; [V (-2000) 39]; [V (-700) 38]; [I 6]; [V 321 5]; [Sc 200 14];
    [T (moscow 8 300 2970)]; [T (moscow 8 300 3000)]]) /\ moscow 8 300 2970 = GT 1729892988 0.
Proof. cbv zeta. split; [okk|]. vm_compute. repeat split. Qed.
(** L1OC: a velocity of 1000001 units is reported as 1000000 *)
Theorem C83_velocity_refuted : exists h e v, Forall (kev_ok L1) (h ++ [e]) /\ (exists sv px py pz vx, ke_msg e = KM sv (K11 px py pz vx v)) /\
  option_map (option_map (gattr (Gvel 1))) (ex_cdma L1 h e) = Some (Some [V (-1000000000) 30]) /\ km v 30 = V (-1000001000) 30.
Proof.
  exists [KE 7 (kx (Sm 1 1000001) 10 1000 33) pad; KE 7 (kx (Sm 1 1000001) 12 1001 0) pad], (KE 7 (kx (Sm 1 1000001) 11 1002 0) pad), (Sm 1 1000001).
  split; [okk|]. split; [repeat eexists|]. vm_compute. repeat split.
Qed.
Print Assumptions C83_velocity_refuted.
(** the position of one interval with the clock and reference time of the next *)
Theorem C83_mixed_refuted : exists x h e m10 m11 tb tb', Forall (kev_ok x) (h ++ [e]) /\
  (let l k := last_of (kwant (ke_prn e) k) h in l 10 = Some m10 /\ l 11 = Some m11) /\
  (* the position was sent with the first message 10, before the reference time changed *)
  (exists h1 h2, h = h1 ++ h2 /\ last_of (kwant (ke_prn e) 10) h1 = Some m10 /\ last_of (kwant (ke_prn e) 11) h1 = Some m11) /\ tb <> tb' /\
  option_map (option_map (fun y => (gattr Giode y, gattr (Gpos 0) y))) (ex_cdma x h e) = Some (Some ([I tb'], [V (-12345678901000) 20])) /\
  option_map (option_map (fun y => (gattr Giode y, gattr (Gpos 0) y))) (match rev h with y :: r => ex_cdma x (rev r) y | [] => None end) =
    Some (Some ([I tb], [V (-12345678901000) 20])).
Proof.
  exists L3, [KE 7 (kx (Sm 0 1) 10 1000 33) pad; KE 7 (kx (Sm 0 1) 11 1001 0) pad; KE 7 (kx (Sm 0 1) 12 1002 0) pad], (KE 7 (kx (Sm 0 1) 10 1003 53) pad),
    (kx (Sm 0 1) 10 1000 33), (kx (Sm 0 1) 11 1001 0), 33, 53.
  split; [okk|]. split; [vm_compute; split; reflexivity|]. split; [eexists _, []; rewrite app_nil_r; vm_compute; repeat split|]. split; [discriminate|]. vm_compute. split; reflexivity.
Qed.
Print Assumptions C83_mixed_refuted.

(** C84: an SBAS message 9 is reported with every number as sent and its time of day in the day nearest to the
    reception; messages of other preambles or types are ignored *)
Theorem C84_sbs week tow sat f rest : sgeo_ok f -> 0 <= week -> 0 <= tow < 604800 ->
  exists t0, nearest 86400 (86400 * gps0 + 604800 * week + tow) (16 * n_t0 f) t0 /\
    decode_sbs_l1 week tow sat (enc (sgeo_fields f) ++ rest) = Some (Some (sgeo_of sat (86400 * gps0 + 604800 * week + tow) t0 f)).
Proof. exact (sbs_ok week tow sat f rest). Qed.
Print Assumptions C84_sbs.
Theorem C84_other week tow sat pre mt body rest : U 8 pre -> U 6 mt -> ~ (pre = 83 \/ pre = 154 \/ pre = 198) \/ mt <> 9 ->
  decode_sbs_l1 week tow sat (enc [(8 # pre); (6 # mt); (8 # body)] ++ rest) = Some None.
Proof. exact (sbs_other week tow sat pre mt body rest). Qed.
Print Assumptions C84_other.
(** received ten seconds before midnight, for ten past midnight *)
Example C84_ex : let f := SGEO 154 33 38 15 (-300000000) 200000001 (-5) 7 (-8) 9 (-10) 11 (-12) 13 (-14) in sgeo_ok f /\
  option_map (option_map (fun x => map (fun a => gattr a x) [Gt0; Gsvh; Gsva; Gpos 0; Gvel 1; Gacc 2; Gaf0])) (decode_sbs_l1 2300 86390 140 (enc (sgeo_fields f))) =
  Some (Some [[T (at_week gps0 2300 87008)]; [I 1]; [D 0 1]; [D (-2400000000) 2]; [D (-5000) 6]; [D (-7500) 7]; [V 13 31]]).
Proof. cbv zeta. split; [vm_compute; intuition discriminate|]. vm_compute. reflexivity. Qed.
