(** Properties C26, C27 and C53: selection of ephemerides and use of SSR corrections.
    [U] is the number of ticks per second. *)
From Verif Require Import EphModel EphSpec EphProofs.
Open Scope Z_scope.

(** C26: the result qualifies; none is returned only if nothing qualifies; without an issue number
    the closest is returned, the last one among equally close ones. *)
Theorem C26_findeph_closest : forall U nav t sat iode mode m, 0 < U -> age_limit (fst (sat2prn sat)) m -> iode < 0 ->
  (exists e l1 l2, findeph U nav t sat iode mode = Some (Some e) /\ qualifies U t sat iode mode m e /\
     nav = l1 ++ e :: l2 /\
     (forall x, In x l1 -> qualifies U t sat iode mode m x -> age U t e <= age U t x) /\
     (forall x, In x l2 -> qualifies U t sat iode mode m x -> age U t e < age U t x)) \/
  (findeph U nav t sat iode mode = Some None /\ forall x, In x nav -> ~ qualifies U t sat iode mode m x).
Proof.
  intros U nav t sat iode mode m HU Hm Hi. destruct (findeph_ok U HU nav t sat iode mode m (proj2 (maxdtoe_iff _ _) Hm)) as ([e|] & -> & H); [left|right; auto].
  destruct H as (_ & Q & H & _). destruct (H Hi) as (l1 & l2 & A & B & C). exists e, l1, l2. auto.
Qed.
Print Assumptions C26_findeph_closest.

(** With an issue number: the first one that qualifies, and it has this issue number. *)
Theorem C26_findeph_issue_partial : forall U nav t sat iode mode m, 0 < U -> age_limit (fst (sat2prn sat)) m -> 0 <= iode ->
  (exists e l1 l2, findeph U nav t sat iode mode = Some (Some e) /\ qualifies U t sat iode mode m e /\ e_iode e = iode /\
     nav = l1 ++ e :: l2 /\ forall x, In x l1 -> ~ qualifies U t sat iode mode m x) \/
  (findeph U nav t sat iode mode = Some None /\ forall x, In x nav -> ~ qualifies U t sat iode mode m x).
Proof.
  intros U nav t sat iode mode m HU Hm Hi. destruct (findeph_ok U HU nav t sat iode mode m (proj2 (maxdtoe_iff _ _) Hm)) as ([e|] & -> & H); [left|right; auto].
  destruct H as (_ & Q & _ & H). destruct (H Hi) as (l1 & l2 & A & B). exists e, l1, l2.
  split; [reflexivity|]. split; [exact Q|]. split; [|auto]. destruct Q as (_ & _ & _ & Q). auto.
Qed.
Print Assumptions C26_findeph_issue_partial.

Definition ex_e (iode toe : Z) : ephm := EPH 10 iode 0 (GT toe 0) 0 0.
Example C26_case :
  findeph 1000 [ex_e 1 0; ex_e 2 7200; ex_e 3 14400; ex_e 4 7200] (GT 7000 0) 10 (-1) 0 = Some (Some (ex_e 4 7200)) /\
  findeph 1000 [ex_e 1 0; ex_e 2 7200; ex_e 3 14400] (GT 7000 0) 10 1 0 = Some (Some (ex_e 1 0)) /\
  findeph 1000 [ex_e 1 0; ex_e 2 7200; ex_e 3 14400] (GT 7000 0) 10 3 0 = Some None /\
  findeph 1000 [ex_e 1 0] (GT 7000 0) 11 (-1) 0 = Some None.
Proof. vm_compute. auto. Qed.

(** With an issue number the closest is not always returned: of two ephemerides with the same issue
    number the earlier list entry wins even if the other is closer. *)
Theorem C26_issue_closest_refuted : exists nav t sat iode mode m e x,
  age_limit (fst (sat2prn sat)) m /\ findeph 1 nav t sat iode mode = Some (Some e) /\
  In x nav /\ qualifies 1 t sat iode mode m x /\ age 1 t x < age 1 t e.
Proof.
  exists [ex_e 5 0; ex_e 5 7200], (GT 7000 0), 10, 5, 0, 7201, (ex_e 5 0), (ex_e 5 7200).
  split; [left; reflexivity|]. split; [reflexivity|]. split; [right; left; reflexivity|].
  split; [|vm_compute; reflexivity]. unfold qualifies. vm_compute. repeat split; congruence.
Qed.
Print Assumptions C26_issue_closest_refuted.

(** Almanacs: the closest of the satellite within the age limit (ticks; [None]: no limit). *)
Theorem C26_findalm : forall U alm t sat tmax, 0 < U ->
  match findalm U alm t sat tmax with
  | None => forall x, In x alm -> ~ aqual U t sat tmax x
  | Some e => In e alm /\ aqual U t sat tmax e /\ forall x, In x alm -> aqual U t sat tmax x -> aage U t e <= aage U t x
  end.
Proof. intros U alm t sat tmax HU. exact (findalm_ok U HU alm t sat tmax). Qed.
Print Assumptions C26_findalm.
Example C26_alm_case :
  findalm 10 [(3, GT 0 0); (4, GT 990 0); (3, GT 900 5); (3, GT 2000 0)] (GT 1000 0) 3 (Some 5000) = Some (3, GT 900 5) /\
  findalm 10 [(3, GT 0 0)] (GT 1000 0) 3 (Some 5000) = None /\ findalm 10 [(3, GT 0 0)] (GT 1000 0) 3 None = Some (3, GT 0 0).
Proof. vm_compute. auto. Qed.

(** C27: a satellite that is used has both corrections, they are the stored ones and not NaN, the
    satellite is in the mask they refer to, and the ephemeris has the issue number of the orbit
    correction (whenever that is not negative). *)
Theorem C27_used : forall U eph geph sigs tobs single c obs cs' outs i sat t e corr tgd, 0 < U ->
  NoDup (map fst obs) -> satposs U eph geph sigs tobs single obs (Some c) = Some (cs', outs) ->
  nth_error obs i = Some (sat, t) -> nth_error outs i = Some (Use e corr tgd) ->
  exists iode o x mode m,
    corr = Some (o, Some x) /\
    in_mask c sat /\ in_clk_mask c sat /\ (exists d, c_iode c = Some d /\ zget sat d = Some iode) /\
    orbit_corr U c tobs sat o /\ clock_corr U c tobs sat x /\
    dget gnss_eqb (fst (sat2prn sat)) (c_nav_mode c) = Some mode /\
    age_limit (fst (sat2prn sat)) m /\
    In e (if gnss_eqb (fst (sat2prn sat)) GLO then geph else eph) /\ qualifies U t sat iode mode m e.
Proof.
  intros U eph geph sigs tobs single c obs cs' outs i sat t e corr tgd HU.
  exact (used_user U eph geph sigs tobs single HU c obs cs' outs i sat t e corr tgd).
Qed.
Print Assumptions C27_used.

(** Conversely, a satellite with all of this is used. *)
Theorem C27_complete : forall U eph geph sigs tobs single c obs cs' outs i sat t d iode o x mode e t0,
  NoDup (map fst obs) -> satposs U eph geph sigs tobs single obs (Some c) = Some (cs', outs) ->
  nth_error obs i = Some (sat, t) -> In (fst (sat2prn sat)) sigs ->
  in_mask c sat -> in_clk_mask c sat -> c_iode c = Some d -> zget sat d = Some iode ->
  orbit_corr U c tobs sat o -> clock_corr U c tobs sat x ->
  (c_hstat c = true -> c_hclk c <> None) ->
  (c_mode c = MBds -> zget sat (c_iodc_c c) <> None) ->
  dget gnss_eqb (fst (sat2prn sat)) (c_nav_mode c) = Some mode ->
  ref_time c sat 1 t0 ->
  findeph U (if gnss_eqb (fst (sat2prn sat)) GLO then geph else eph) t sat iode mode = Some (Some e) ->
  exists tgd, nth_error outs i = Some (Use e (Some (o, Some x)) tgd).
Proof. exact complete_user. Qed.
Print Assumptions C27_complete.

(** The corrections are not changed, except for SouthPAN and SBAS. *)
Theorem C27_unchanged_partial : forall U eph geph sigs tobs single c obs cs' outs, ~ with_rates (c_mode c) ->
  satposs U eph geph sigs tobs single obs (Some c) = Some (cs', outs) -> cs' = Some c.
Proof.
  intros U eph geph sigs tobs single c obs cs' outs H. apply satposs_unchanged.
  rewrite rates_iff in H. now destruct (is_rate (c_mode c)).
Qed.
Print Assumptions C27_unchanged_partial.

Definition ex_c (m : smode) (iode : Z) (o : vec) (k : num) : scs :=
  SCS m 0 (-1) 0 0 [10; 11] [] 0 0 (Some [(10, iode); (11, 7)]) [(10, o); (11, (Some 1, Some 1, Some 1))]
      [(10, (Some 2, Some 0, Some 0)); (11, (Some 0, Some 0, Some 0))] [(10, k); (11, Some 4)]
      [(10, Some 0); (11, Some 0)] None false
      [(10, [(tO, GT 7000 0); (tC, GT 7000 0)]); (11, [(tO, GT 7000 0); (tC, GT 7000 0)])] [] [] [] [] [(GPS, 0)].
Definition ex_nav : list ephm := [ex_e 5 7200; EPH 10 6 0 (GT 7000 0) 0 0; EPH 11 7 0 (GT 7200 0) 0 3].

Example C27_case :
  satposs 1 ex_nav [] [GPS] (GT 7010 0) false [(10, GT 7010 0); (11, GT 7010 0); (12, GT 7010 0)]
    (Some (ex_c MStd 5 (Some 100, Some 200, Some 300) (Some 9))) =
  Some (Some (ex_c MStd 5 (Some 100, Some 200, Some 300) (Some 9)),
        [Use (ex_e 5 7200) (Some ((Some 100, Some 200, Some 300), Some 9)) None;
         Use (EPH 11 7 0 (GT 7200 0) 0 3) (Some ((Some 1, Some 1, Some 1), Some 4)) None; Skip 0]) /\
  option_map snd (satposs 1 ex_nav [] [GPS] (GT 7010 0) false [(10, GT 7010 0)]
    (Some (ex_c MStd 5 (Some 100, None, Some 300) (Some 9)))) = Some [Skip 0] /\
  option_map snd (satposs 1 ex_nav [] [GPS] (GT 7010 0) false [(10, GT 7010 0)]
    (Some (ex_c MStd 5 (Some 100, Some 200, Some 300) None))) = Some [Skip 0] /\
  option_map snd (satposs 1 ex_nav [] [GPS] (GT 7010 0) false [(10, GT 7010 0)]
    (Some (ex_c MStd 8 (Some 100, Some 200, Some 300) (Some 9)))) = Some [Skip 1].
Proof. vm_compute. auto. Qed.

(** For SouthPAN and SBAS the stored orbit corrections are changed: two evaluations at the same time
    give different corrections. *)
Theorem C27_unchanged_refuted : exists c cs1 cs2 o1 o2,
  c_mode c = MSbasL1 /\
  satposs 1 ex_nav [] [GPS] (GT 7010 0) false [(10, GT 7010 0)] (Some c) = Some (Some cs1, o1) /\
  satposs 1 ex_nav [] [GPS] (GT 7010 0) false [(10, GT 7010 0)] (Some cs1) = Some (Some cs2, o2) /\
  cs1 <> c /\ o1 <> o2.
Proof.
  exists (ex_c MSbasL1 5 (Some 100, Some 200, Some 300) (Some 9)),
         (ex_c MSbasL1 5 (Some 120, Some 200, Some 300) (Some 9)),
         (ex_c MSbasL1 5 (Some 140, Some 200, Some 300) (Some 9)),
         [Use (ex_e 5 7200) (Some ((Some 120, Some 200, Some 300), Some 9)) (Some 0)],
         [Use (ex_e 5 7200) (Some ((Some 140, Some 200, Some 300), Some 9)) (Some 0)].
  vm_compute. repeat split; congruence.
Qed.
Print Assumptions C27_unchanged_refuted.

(** An issue number -1, as check_validity leaves it behind for expired orbit corrections, selects
    any ephemeris instead of none. *)
Theorem C27_issue_refuted : exists c cs' e corr tgd,
  (exists d, c_iode c = Some d /\ zget 10 d = Some (-1)) /\
  satposs 1 ex_nav [] [GPS] (GT 7010 0) false [(10, GT 7010 0)] (Some c) = Some (cs', [Use e corr tgd]) /\
  e_iode e <> -1.
Proof.
  exists (ex_c MStd (-1) (Some 100, Some 200, Some 300) (Some 9)), (Some (ex_c MStd (-1) (Some 100, Some 200, Some 300) (Some 9))),
    (EPH 10 6 0 (GT 7000 0) 0 0), (Some ((Some 100, Some 200, Some 300), Some 9)), None.
  split; [eexists; split; reflexivity|]. split; [vm_compute; reflexivity|vm_compute; discriminate].
Qed.
Print Assumptions C27_issue_refuted.

(** C53: with corrections, or in a mode other than single-frequency single-point, the result for a
    satellite does not depend on the other satellites. *)
Theorem C53_independent : forall U eph geph sigs tobs single c obs cs' outs,
  NoDup (map fst obs) -> satposs U eph geph sigs tobs single obs (Some c) = Some (cs', outs) ->
  length outs = length obs /\
  forall i sat t, nth_error obs i = Some (sat, t) ->
  exists cs'' o, satposs U eph geph sigs tobs single [(sat, t)] (Some c) = Some (cs'', [o]) /\ nth_error outs i = Some o.
Proof. exact satposs_indep. Qed.
Print Assumptions C53_independent.

Theorem C53_standalone_partial : forall U eph geph sigs tobs obs cs' outs,
  satposs U eph geph sigs tobs false obs None = Some (cs', outs) ->
  cs' = None /\ length outs = length obs /\
  forall i sat t, nth_error obs i = Some (sat, t) ->
  exists o, satposs U eph geph sigs tobs false [(sat, t)] None = Some (None, [o]) /\ nth_error outs i = Some o.
Proof.
  intros U eph geph sigs tobs obs cs' outs H. eapply (loop_none U eph geph sigs tobs false eq_refl).
  unfold satposs in H. destruct obs; exact H.
Qed.
Print Assumptions C53_standalone_partial.
Example C53_case :
  option_map snd (satposs 1 ex_nav [] [GPS] (GT 7010 0) false [(10, GT 7010 0); (12, GT 7010 0); (11, GT 7010 0)] None) =
  Some [Use (EPH 10 6 0 (GT 7000 0) 0 0) None None; Skip 1; Use (EPH 11 7 0 (GT 7200 0) 0 3) None None].
Proof. vm_compute. reflexivity. Qed.

(** In single-frequency single-point mode a GLONASS satellite gets the group delay of the satellite
    before it, and raises UnboundLocalError if it comes first. *)
Theorem C53_glonass_refuted : exists sat geph,
  fst (sat2prn sat) = GLO /\
  satposs 1 ex_nav geph [GPS; GLO] (GT 7010 0) true [(sat, GT 7010 0)] None = None /\
  exists e, option_map snd (satposs 1 ex_nav geph [GPS; GLO] (GT 7010 0) true [(11, GT 7010 0); (sat, GT 7010 0)] None) =
    Some [Use (EPH 11 7 0 (GT 7200 0) 0 3) None (Some 3); Use e None (Some 3)] /\ e_tgd e <> 3.
Proof.
  exists (prn2sat GLO 1), [EPH (prn2sat GLO 1) 1 0 (GT 7000 0) 0 0]. split; [reflexivity|]. split; [reflexivity|].
  exists (EPH (prn2sat GLO 1) 1 0 (GT 7000 0) 0 0). split; [vm_compute; reflexivity|]. discriminate.
Qed.
Print Assumptions C53_glonass_refuted.
