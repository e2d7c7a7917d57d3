(** Split fields; CNAV, CNAV-2, B-CNAV, D1 and D2 ephemerides assembled from messages. *)
From Verif Require SatProofs.
From Verif Require Import SatModel TimeModel TimeSpec CssrState RawModel RawSpec RawFacts RawGal RawLnav RawProofs Base BaseFacts FieldFacts.
From Verif Require Import NavModel NavSpec NavFacts NavCnav NavCnavH NavBds NavBds2 NavD1 NavD2 PropRaw.
From Coq Require Import Lia ZifyBool.
Notation length := List.length.
Open Scope Z_scope.

(** C75: a field sent in two or three parts, in different words, is the number its parts spell when put side by
    side; of a signed one the first bit of the first part is the sign.  For all buffers, places and widths. *)
Theorem C75_unsigned2 b p1 l1 p2 l2 : (p1 + l1 <= length b)%nat -> (p2 + l2 <= length b)%nat ->
  getbitu2 b p1 l1 p2 l2 = Some (bval (firstn l1 (skipn p1 b) ++ firstn l2 (skipn p2 b))).
Proof. exact (getbitu2_val b p1 l1 p2 l2). Qed.
Print Assumptions C75_unsigned2.
Theorem C75_unsigned3 b p1 l1 p2 l2 p3 l3 : (p1 + l1 <= length b)%nat -> (p2 + l2 <= length b)%nat -> (p3 + l3 <= length b)%nat ->
  getbitu3 b p1 l1 p2 l2 p3 l3 = Some (bval (firstn l1 (skipn p1 b) ++ firstn l2 (skipn p2 b) ++ firstn l3 (skipn p3 b))).
Proof. exact (getbitu3_val b p1 l1 p2 l2 p3 l3). Qed.
Print Assumptions C75_unsigned3.
(** two's complement: the value less 2^n when the first bit is set *)
Definition signed (l : list bool) : Z := bval l - (if hd false l then 2 ^ Z.of_nat (length l) else 0).
Theorem C75_signed2 b p1 l1 p2 l2 : (1 <= l1)%nat -> (p1 + l1 <= length b)%nat -> (p2 + l2 <= length b)%nat ->
  getbits2 b p1 l1 p2 l2 = Some (signed (firstn l1 (skipn p1 b) ++ firstn l2 (skipn p2 b))).
Proof.
  intros H0 H1 H2. rewrite (getbits2_val b p1 l1 p2 l2 H0 H1 H2). f_equal.
  assert (E : length (slice b p1 l1 ++ slice b p2 l2) = (l1 + l2)%nat) by (rewrite app_length, !slice_length; lia).
  unfold signed. change (firstn l1 (skipn p1 b)) with (slice b p1 l1). change (firstn l2 (skipn p2 b)) with (slice b p2 l2).
  rewrite <- E. apply sgn_val. lia.
Qed.
Print Assumptions C75_signed2.
Theorem C75_signed3 b p1 l1 p2 l2 p3 l3 : (1 <= l1)%nat -> (p1 + l1 <= length b)%nat -> (p2 + l2 <= length b)%nat -> (p3 + l3 <= length b)%nat ->
  getbits3 b p1 l1 p2 l2 p3 l3 = Some (signed (firstn l1 (skipn p1 b) ++ firstn l2 (skipn p2 b) ++ firstn l3 (skipn p3 b))).
Proof.
  intros H0 H1 H2 H3. rewrite (getbits3_val b p1 l1 p2 l2 p3 l3 H0 H1 H2 H3). f_equal.
  assert (E : length (slice b p1 l1 ++ slice b p2 l2 ++ slice b p3 l3) = (l1 + (l2 + l3))%nat) by (rewrite !app_length, !slice_length; lia).
  unfold signed. change (firstn l1 (skipn p1 b)) with (slice b p1 l1). change (firstn l2 (skipn p2 b)) with (slice b p2 l2). change (firstn l3 (skipn p3 b)) with (slice b p3 l3).
  rewrite <- E. apply sgn_val. lia.
Qed.
Print Assumptions C75_signed3.
Example C75_example : getbits3 (bitsof 20 (Z.lor (Z.shiftl 13 16) (Z.lor (Z.shiftl 5 8) 2))) 0 4 8 4 16 4 = Some (-686)
  /\ getbitu3 (bitsof 20 (Z.lor (Z.shiftl 13 16) (Z.lor (Z.shiftl 5 8) 2))) 0 4 8 4 16 4 = Some 3410
  /\ getbits2 (bitsof 16 (Z.shiftl 8 12 + 3)) 0 4 12 4 = Some (-125).
Proof. repeat split. Qed.

(** C76: after any sequence of D1 subframes of all BDS satellites, a subframe numbered 0 to 3 returns what
    subframes 1, 2 and 3 last received from its satellite say - every parameter exactly as sent - and any other
    returns nothing.  Partial: the week is moved the wrong way when the time of ephemeris lies in another week
    ([far_week]), toe and toc stay in BDT while the time of transmission is in GPS time, and the subframes
    need not belong together. *)
Theorem C76_d1_partial h prn f rest : Forall (fun e => let '(q, m, _) := e in 1 <= q <= 63 /\ dframe_ok m) h -> 1 <= prn <= 63 -> dframe_ok f ->
  let l k := last_of (bwant (fun m => dno (f_sub m)) prn k) (h ++ [(prn, f, rest)]) in
  exists d d', bfeeds decode_bds_d1 dframe_fields h bds_new = Some d /\
    bfeed decode_bds_d1 dframe_fields (prn, f, rest) d
    = Some (d', if dno (f_sub f) <=? 3 then d1_of (prn2sat BDS prn) far_week (at_week bds0) (l 1, l 2, l 3) else None).
Proof. intros Hh Hp Hf. exact (d1_any h (prn, f, rest) Hh (conj Hp Hf)). Qed.
Print Assumptions C76_d1_partial.
(** the week reported is the right one exactly when no week boundary lies between; otherwise it is two weeks off *)
Theorem C76_week week t tow :
  (far_week week t tow = near_week week t tow <-> Z.abs (t - tow) <= 302400) /\
  (Z.abs (t - tow) > 302400 -> Z.abs (far_week week t tow - near_week week t tow) = 2).
Proof.
  unfold far_week, near_week. split; [split|]; destruct (t - tow >? 302400) eqn:E1; destruct (t - tow <? -302400) eqn:E2; lia.
Qed.
Print Assumptions C76_week.
Definition ret {M} dec (fl : M -> list field) (h : list (bev M)) (e : bev M) : option (option eph) :=
  do d <- bfeeds dec fl h bds_new; do r <- bfeed dec fl e d; Some (snd r).
Definition fa sow toc := DF 0 sow 0 (DA 0 7 2 1000 toc (-45) 300 0 0 0 0 (-5) (-123456) 789 7) [] 0.
Definition fb sow M0 toeh := DF 0 sow 0 (DB (-5600) (-100) M0 123456789 200 (-6000) 77 2852000000 toeh) [] 0.
Definition fc sow toel := DF 0 sow 0 (DC toel 650000000 (-45) (-2000000) 1234 (-77) (-1234567890) 1900000000 0) [] 0.
Ltac okd1 := repeat (apply Forall_cons; [split; [lia|]; split; [|cbn]; cbn; unfold U, S_; cbn; lia|]); try apply Forall_nil.
(** sent at second 604797 of week 1000 with a time of ephemeris of second 0 (of week 1001): said to be in week 999 *)
Theorem C76_week_refuted : exists h prn f rest f1 f2 f3, Forall (fun e => let '(q, m, _) := e in 1 <= q <= 63 /\ dframe_ok m) (h ++ [(prn, f, rest)]) /\
  (let l k := last_of (bwant (fun m => dno (f_sub m)) prn k) (h ++ [(prn, f, rest)]) in l 1 = Some f1 /\ l 2 = Some f2 /\ l 3 = Some f3) /\
  f_sow f2 = f_sow f1 + 6 /\ f_sow f3 = f_sow f1 + 12 /\
  option_map (option_map (attr Fweek)) (ret decode_bds_d1 dframe_fields h (prn, f, rest)) = Some (Some (Some (I 999))) /\
  option_map (attr Fweek) (d1_of (prn2sat BDS prn) near_week bdt (Some f1, Some f2, Some f3)) = Some (Some (I 1001)).
Proof.
  exists [(20, fa 604785 0, []); (20, fb 604791 5 0, [])], 20, (fc 604797 0), [], (fa 604785 0), (fb 604791 5 0), (fc 604797 0).
  split; [okd1|]. vm_compute. repeat split.
Qed.
Print Assumptions C76_week_refuted.
(** toe and toc are 14 seconds off when they are compared with GPS times *)
Theorem C76_scale sat (f1 f2 f3 : dframe) e r : d1_of sat far_week (at_week bds0) (Some f1, Some f2, Some f3) = Some e ->
  d1_of sat far_week bdt (Some f1, Some f2, Some f3) = Some r ->
  exists t t', attr Ftoe e = Some (T (GT t 0)) /\ attr Ftoe r = Some (T (GT t' 0)) /\ t' = t + 14.
Proof.
  unfold d1_of. destruct (f_sub f1); try discriminate. destruct (f_sub f2); try discriminate. destruct (f_sub f3); try discriminate. intros H1 H2.
  injection H1 as <-. injection H2 as <-. unfold bdt, at_week. eexists. eexists. split; [reflexivity|]. split; [reflexivity|]. lia.
Qed.
Print Assumptions C76_scale.
(** subframe 2 of an hour ago, with its time of ephemeris, and subframes 1 and 3 of now are combined *)
Theorem C76_mixed_refuted : exists h prn f rest f1 f2 f3, Forall (fun e => let '(q, m, _) := e in 1 <= q <= 63 /\ dframe_ok m) (h ++ [(prn, f, rest)]) /\
  (let l k := last_of (bwant (fun m => dno (f_sub m)) prn k) (h ++ [(prn, f, rest)]) in l 1 = Some f1 /\ l 2 = Some f2 /\ l 3 = Some f3) /\
  f_sow f2 = f_sow f1 - 3600 /\ option_map (option_map (attr FM0)) (ret decode_bds_d1 dframe_fields h (prn, f, rest)) = Some (Some (Some (Sc 5 31))) /\
  option_map (option_map (attr Ftoes)) (ret decode_bds_d1 dframe_fields h (prn, f, rest)) = Some (Some (Some (I 21600))).
Proof.
  exists [(20, fb 21600 5 0, []); (20, fa 25200 3150, [])], 20, (fc 25212 2700), [], (fa 25200 3150), (fb 21600 5 0), (fc 25212 2700).
  split; [okd1|]. vm_compute. repeat split.
Qed.
Print Assumptions C76_mixed_refuted.
Example C76_example : ret decode_bds_d1 dframe_fields [(20, fb 21606 (-2000000000) 1, []); (21, fa 1 1, []); (20, fa 21600 2700, [])] (20, fc 21612 2700, [true])
  = Some (d1_of (prn2sat BDS 20) near_week (at_week bds0) (Some (fa 21600 2700), Some (fb 21606 (-2000000000) 1), Some (fc 21612 2700)))
  /\ option_map (option_map (attr FM0)) (ret decode_bds_d1 dframe_fields [(20, fb 21606 (-2000000000) 1, []); (21, fa 1 1, []); (20, fa 21600 2700, [])] (20, fc 21612 2700, [true]))
  = Some (Some (Some (Sc (-2000000000) 31))).
Proof. split; vm_compute; reflexivity. Qed.

(** C77: the same of D2 pages: after any sequence of pages of all satellites, a page 1 to 10 of subframe 1 returns
    what pages 1 and 3 to 10 last received say when pages 3 to 10 are of one half minute.  Partial: the mean
    anomaly loses ten bits, the axis takes four bits from page 1, the eccentricity is read as a signed
    number, besides the week and time scale of D1. *)
Theorem C77_d2_partial h prn p rest : Forall (fun e => let '(q, m, _) := e in 1 <= q <= 63 /\ d2page_ok m) h -> 1 <= prn <= 63 -> d2page_ok p ->
  let no m := if p_frame m =? 1 then pno (p_page m) else -1 in
  let l k := last_of (bwant no prn k) (h ++ [(prn, p, rest)]) in
  exists d d', bfeeds decode_bds_d2 d2page_fields h bds_new = Some d /\
    bfeed decode_bds_d2 d2page_fields (prn, p, rest) d
    = Some (d', if (1 <=? no p) && (no p <=? 10) then
        d2_of (prn2sat BDS prn) far_week (at_week bds0) (fun m => m / 2 ^ 18 * 2 ^ 8 + m mod 2 ^ 8) (fun e => if e <? 2 ^ 31 then e else e - 2 ^ 32)
          (fun tgdb a => a / 2 ^ 4 * 2 ^ 4 + tgdb mod 2 ^ 10 / 2 ^ 6) (l 1) (l 3) (l 4) (l 5) (l 6) (l 7) (l 8) (l 9) (l 10) else None).
Proof. intros Hh Hp Hf. exact (d2_any h (prn, p, rest) Hh (conj Hp Hf)). Qed.
Print Assumptions C77_d2_partial.
(** which values survive *)
Theorem C77_values m a tgdb e : 
  (m / 2 ^ 18 * 2 ^ 8 + m mod 2 ^ 8 = m <-> -256 <= m < 256) /\
  (U 32 a -> (a / 2 ^ 4 * 2 ^ 4 + tgdb mod 2 ^ 10 / 2 ^ 6 = a <-> a mod 16 = tgdb mod 1024 / 64)) /\
  (U 32 e -> ((if e <? 2 ^ 31 then e else e - 2 ^ 32) = e <-> e < 2 ^ 31)).
Proof.
  split; [|split].
  - change (2 ^ 18) with 262144. change (2 ^ 8) with 256.
    pose proof (Z.div_mod m 262144 ltac:(lia)). pose proof (Z.mod_pos_bound m 262144 ltac:(lia)).
    pose proof (Z.div_mod m 256 ltac:(lia)). pose proof (Z.mod_pos_bound m 256 ltac:(lia)). lia.
  - intros _. change (2 ^ 4) with 16. change (2 ^ 10) with 1024. change (2 ^ 6) with 64. pose proof (Z.div_mod a 16 ltac:(lia)). lia.
  - unfold U. intros H. change (2 ^ 31) with 2147483648 in *. change (2 ^ 32) with 4294967296 in *. destruct (e <? 2147483648) eqn:E; lia.
Qed.
Print Assumptions C77_values.
Definition pg sow x := PG 0 1 sow 0 x [] 0.
Definition g1 sow tgdb := pg sow (P1 0 1 2 700 450 (-30) tgdb 0).
Definition g5 sow M0 eh := pg sow (P5 3 M0 (-77) eh 0).
Definition dpages s tgdb M0 eh : list (bev d2page) :=
  [(3, g1 (s - 6) tgdb, []); (3, pg s (P3 0 0 0 (-1234) (-3) 0), []); (3, pg (s + 3) (P4 4242 (-9) 1 777 (-55) 0), []); (3, g5 (s + 6) M0 eh, []);
   (3, pg (s + 9) (P6 4194000 3393000000 (-5) 0), []); (3, pg (s + 12) (P7 200 (-600) 450 (-1000) 0), []); (3, pg (s + 15) (P8 1999 (-5000) 700 (-20) 0), []);
   (3, pg (s + 18) (P9 17 (-2000000000) 60000000 0), [])].
Definition g10 s : bev d2page := (3, pg (s + 21) (P10 30 (-200) 0 0 0), []).
Ltac okd2 := unfold dpages, g10; cbn [app]; repeat (apply Forall_cons; [split; [lia|]; split; [|split]; cbn; unfold U, S_; cbn; lia|]); try apply Forall_nil.
(** a mean anomaly of 10^9 is returned as 976384 in the same unit *)
Theorem C77_M0_refuted : exists h e M0 r1 r2 r3 r4, Forall (fun e => let '(q, m, _) := e in 1 <= q <= 63 /\ d2page_ok m) (h ++ [e]) /\
  last_of (bwant (fun m => pno (p_page m)) 3 5) (h ++ [e]) = Some (pg r1 (P5 r2 M0 r3 r4 0)) /\
  option_map (option_map (attr FM0)) (ret decode_bds_d2 d2page_fields h e) = Some (Some (Some (Sc 976384 31))) /\ M0 = 1000000000.
Proof.
  exists (dpages 3606 25 1000000000 3), (g10 3606), 1000000000, 3612, 3, (-77), 3. split; [okd2|]. vm_compute. repeat split.
Qed.
Print Assumptions C77_M0_refuted.
(** two satellites' worth of pages differing only in page 1's group delay have different axes *)
Theorem C77_axis_refuted : exists h h' e, Forall (fun e => let '(q, m, _) := e in 1 <= q <= 63 /\ d2page_ok m) (h ++ [e]) /\
  Forall (fun e => let '(q, m, _) := e in 1 <= q <= 63 /\ d2page_ok m) (h' ++ [e]) /\ tl h = tl h' /\
  option_map (option_map (attr FA)) (ret decode_bds_d2 d2page_fields h e) <> option_map (option_map (attr FA)) (ret decode_bds_d2 d2page_fields h' e).
Proof.
  exists (dpages 3606 25 5 3), (dpages 3606 (-1) 5 3), (g10 3606). split; [okd2|]. split; [okd2|]. split; [reflexivity|]. vm_compute. discriminate.
Qed.
Print Assumptions C77_axis_refuted.
(** an eccentricity of a quarter or more comes out negative *)
Theorem C77_e_refuted : exists h e m, Forall (fun e => let '(q, m, _) := e in 1 <= q <= 63 /\ d2page_ok m) (h ++ [e]) /\
  option_map (option_map (attr Fe)) (ret decode_bds_d2 d2page_fields h e) = Some (Some (Some (V m 33))) /\ m < 0.
Proof.
  exists (dpages 3606 25 5 512), (g10 3606). eexists. split; [okd2|]. split; [vm_compute; reflexivity|]. reflexivity.
Qed.
Print Assumptions C77_e_refuted.
(** page 1 of an hour before is combined with pages 3 to 10 of now *)
Theorem C77_mixed_refuted : exists h e q1 q3, Forall (fun e => let '(q, m, _) := e in 1 <= q <= 63 /\ d2page_ok m) (h ++ [e]) /\
  last_of (bwant (fun m => pno (p_page m)) 3 1) (h ++ [e]) = Some q1 /\ last_of (bwant (fun m => pno (p_page m)) 3 3) (h ++ [e]) = Some q3 /\
  p_sow q3 = p_sow q1 + 3606 /\ option_map (option_map (attr Fsvh)) (ret decode_bds_d2 d2page_fields h e) = Some (Some (Some (I 0))).
Proof.
  exists ((3, g1 3600 25, []) :: tl (dpages 7206 25 5 3)), (g10 7206), (g1 3600 25), (pg 7206 (P3 0 0 0 (-1234) (-3) 0)).
  split; [cbn [tl dpages]; okd2|]. vm_compute. repeat split.
Qed.
Print Assumptions C77_mixed_refuted.
Example C77_example : option_map (option_map (fun e => (attr FM0 e, attr Faf1 e, attr Fomg e, attr Fcic e, attr Ftoes e)))
    (ret decode_bds_d2 d2page_fields (dpages 3606 25 5 3) (g10 3606))
  = Some (Some (Some (Sc 5 31), Some (V (-782190) 50), Some (Sc 1920000030 31), Some (V (-1080) 31), Some (I 3600))).
Proof. vm_compute. reflexivity. Qed.

(** C78: after any sequence of CNAV messages of all GPS and QZSS satellites, a message of a known type returns what
    the types 10, 11 and 30 (61 for QZSS) last received from its satellite say, when their times of ephemeris and
    of clock agree, with toe and toc in the week nearest to the transmission.  Partial: the week of prediction
    is the one of the same 256 weeks, and a clock message of another type in place of type 30 hides it. *)
Theorem C78_cnav_partial h e : Forall cev_ok h -> cev_ok e ->
  let l k := last_of (cwant (ce_sys e) (ce_prn e) k) (h ++ [e]) in
  exists s s', cfeeds h cnav_new = Some s /\
    cfeed e s = Some (s', if known (ctype (c_body (ce_frame e))) then
      cnav_of (ce_sys e) (prn2sat (ce_sys e) (ce_prn e)) (fun wn w8 => 256 * (wn / 256) + w8) (l 0, l 1, l 2) else None).
Proof. exact (cnav_any h e). Qed.
Print Assumptions C78_cnav_partial.
(** the week with the given eight low bits nearest to the week sent *)
Definition op_near (wn w8 : Z) : Z := wn + ((w8 - wn + 128) mod 256 - 128).
Theorem C78_top wn w8 : 0 <= w8 < 256 ->
  (256 * (wn / 256) + w8 = op_near wn w8 <-> -128 <= w8 - wn mod 256 < 128) /\
  (256 * (wn / 256) + w8 <> op_near wn w8 -> Z.abs (256 * (wn / 256) + w8 - op_near wn w8) = 256).
Proof.
  intros H. unfold op_near. pose proof (Z.div_mod wn 256 ltac:(lia)). pose proof (Z.mod_pos_bound wn 256 ltac:(lia)).
  pose proof (Z.div_mod (w8 - wn + 128) 256 ltac:(lia)). pose proof (Z.mod_pos_bound (w8 - wn + 128) 256 ltac:(lia)). split; [split|]; lia.
Qed.
Print Assumptions C78_top.
(** with a clock message of types 31 to 37 received last, whose clock is just as good, nothing is returned *)
Theorem C78_clock_only h e : Forall cev_ok h -> cev_ok e ->
  (exists f id top u0 u1 u2 toc a0 a1 a2 b, last_of (cwant (ce_sys e) (ce_prn e) 2) (h ++ [e]) = Some f /\ c_body f = Cck id top u0 u1 u2 toc a0 a1 a2 b) ->
  exists s s', cfeeds h cnav_new = Some s /\ cfeed e s = Some (s', None).
Proof.
  intros Hh He (f & id & top & u0 & u1 & u2 & toc & a0 & a1 & a2 & b & L & B). destruct (cnav_any h e Hh He) as (s & s' & E & R).
  exists s, s'. split; [exact E|]. rewrite R. unfold cresult. rewrite L. clear L. destruct (known _); [|reflexivity]. do 2 f_equal.
  cbn [cnav_of]. destruct (last_of _ _) as [f1|]; [|reflexivity]. destruct (last_of _ _) as [f2|]; [|reflexivity].
  rewrite B. destruct (c_body f1); try reflexivity. destruct (c_body f2); reflexivity.
Qed.
Print Assumptions C78_clock_only.
Definition cret (h : list cev) (e : cev) : option (option eph) := do s <- cfeeds h cnav_new; do r <- cfeed e s; Some (snd r).
Definition c10 tow wn toe := CF tow 0 (C10 wn 0 1500 (-3) toe (-12345678) 99 (-4444) 555 (-4000000000) 8000000000 4000000001 1 0 0) 0.
Definition c11 tow toe := CF tow 0 (C11 toe (-4000000000) 3000000000 (-44444) (-9999) 30000 (-30000) 8000000 (-8000000) 1000000 (-1000000) 0) 0.
Definition c30 tow toc top wnop := CF tow 0 (C30 30 top (-5) 3 4 toc (-30000000) 500000 (-500) (-4000) 1 (-2) 3 (-4) 0 wnop 0) 0.
Definition c31 tow toc top := CF tow 0 (Cck 31 top (-5) 3 4 toc (-30000000) 500000 (-500) 0) 0.
Definition cg f := CE GPS 7 f [].
Ltac okc := repeat (apply Forall_cons; [split; [left; split; [reflexivity|cbn; lia]|split; [|split]; cbn; unfold U, S_; cbn; lia]|]); try apply Forall_nil.
(** predicted in the last week of a group of 256 (2303) and sent in the first of the next (2304): said to be in week 2559 *)
Theorem C78_top_refuted : exists h e, Forall cev_ok (h ++ [e]) /\
  option_map (option_map (fun x => (attr Fweek x, attr Fwnop x))) (cret h e) = Some (Some (Some (I 2304), Some (I 2559))) /\ op_near 2304 (2303 mod 256) = 2303.
Proof.
  exists [cg (c10 100 2304 24); cg (c11 102 24)], (cg (c30 104 24 1800 255)). split; [okc|]. vm_compute. repeat split.
Qed.
Print Assumptions C78_top_refuted.
(** type 10, type 11 and a clock of type 31 with the same time: no ephemeris, although 30 in place of 31 gives one *)
Theorem C78_clock_refuted : exists h e31 e30, Forall cev_ok (h ++ [e31]) /\ Forall cev_ok (h ++ [e30]) /\
  cret h e31 = Some None /\ exists x, cret h e30 = Some (Some x).
Proof.
  exists [cg (c10 100 2304 24); cg (c11 102 24)], (cg (c31 104 24 1800)), (cg (c30 104 24 1800 255)).
  split; [okc|]. split; [okc|]. split; [vm_compute; reflexivity|]. eexists. vm_compute. reflexivity.
Qed.
Print Assumptions C78_clock_refuted.
(** after any messages, one with another preamble or naming another satellite than the one it is said to come from changes nothing *)
Theorem C78_other h sys prn msg : Forall cev_ok h -> (sys = GPS /\ 1 <= prn <= 32 \/ sys = QZS /\ 193 <= prn <= 209) -> (20 <= length msg)%nat ->
  bval (slice msg 0 8) <> 139 \/ bval (slice msg 8 6) <> match sys with QZS => prn - 192 | _ => prn end ->
  exists s, cfeeds h cnav_new = Some s /\ decode_gps_cnav (prn2sat sys prn) msg s = Some (s, None).
Proof.
  intros Hh Hs Hl Hm. destruct (cnav_run h Hh) as (s & E & I1 & I2). exists s. split; [exact E|].
  assert (G : forall i n, (i + n <= 20)%nat -> getu msg i n = Some (bval (slice msg i n))) by (intros i n L; unfold getu; destruct (Nat.leb_spec (i + n) (length msg)); [reflexivity|lia]).
  destruct Hs as [[-> Hq] | [-> Hq]].
  - destruct (I1 prn Hq) as (b & Eb & _). destruct (SatProofs.sat2prn_prn2sat GPS prn Hq) as [Es _]. unfold decode_gps_cnav. rewrite Es. cbv beta iota. rewrite Eb. cbn [bind].
    rewrite !G by lia. cbn [bind]. change (gnss_eqb GPS QZS) with false. cbv iota.
    destruct (Z.eqb_spec (bval (slice msg 0 8)) 139), (Z.eqb_spec prn (bval (slice msg 8 6))); cbn [negb orb]; try reflexivity. lia.
  - destruct (I2 prn Hq) as (b & Eb & _). destruct (SatProofs.sat2prn_prn2sat QZS prn Hq) as [Es _]. unfold decode_gps_cnav. rewrite Es. cbv beta iota. rewrite Eb. cbn [bind].
    rewrite !G by lia. cbn [bind]. change (gnss_eqb QZS QZS) with true. cbv iota.
    destruct (Z.eqb_spec (bval (slice msg 0 8)) 139), (Z.eqb_spec prn (bval (slice msg 8 6) + 192)); cbn [negb orb]; try reflexivity. lia.
Qed.
Print Assumptions C78_other.
(** a type 11 of satellite 8 handed over as one of satellite 7 *)
Example C78_other_example : option_map snd (decode_gps_cnav (prn2sat GPS 7) (enc (cframe_fields 8 (c11 102 24))) cnav_new) = Some None /\
  cret [cg (c10 100 2304 24); cg (c30 104 24 1800 255)] (CE GPS 8 (c11 102 24) []) = Some None.
Proof. vm_compute. split; reflexivity. Qed.
Example C78_example : option_map (option_map (fun x => (attr Fweek x, attr FM0 x, attr Fe x, attr FA x, attr Ftoe x)))
    (cret [cg (c10 100700 2300 0); CE QZS 199 (c11 100702 5) []; cg (c30 100704 0 1800 252)] (cg (c11 100702 0)))
  = Some (Some (Some (I 2301), Some (Sc (-4000000000) 32), Some (V 8000000000 34), Some (V (26559710 * 512 - 12345678) 9), Some (T (at_week gps0 2301 0)))).
Proof. vm_compute. reflexivity. Qed.

(** C79: one CNAV-2 frame of a GPS or QZSS satellite whose third subframe is page 1 (or 61) returns every parameter as sent.
    Partial: the week of toe is chosen by comparing units of 300 s with seconds, and that of prediction as in C78. *)
Theorem C79_cnav2_partial sys prn f rest : (sys = GPS /\ 1 <= prn <= 32 \/ sys = QZS /\ 193 <= prn <= 209) -> c2_ok f ->
  decode_gps_cnav2 (prn2sat sys prn) (enc (c2_fields f) ++ rest)
  = Some (cnav2_of sys (prn2sat sys prn) (fun wn w8 => 256 * (wn / 256) + w8) (near_week (q_wn f) (q_toe f) (c2_tow f)) f).
Proof. exact (cnav2_ok sys prn f rest). Qed.
Print Assumptions C79_cnav2_partial.
(** in the second half of the week (from second 304448 on at the latest) toe is always put one week later *)
Theorem C79_week sys prn f rest e : (sys = GPS /\ 1 <= prn <= 32 \/ sys = QZS /\ 193 <= prn <= 209) -> c2_ok f -> c2_tow f > 304447 ->
  decode_gps_cnav2 (prn2sat sys prn) (enc (c2_fields f) ++ rest) = Some (Some e) ->
  attr Fweek e = Some (I (q_wn f + 1)) /\ attr Ftoe e = Some (T (at_week gps0 (q_wn f + 1) (300 * q_toe f))).
Proof.
  intros Hs Hf Ht. rewrite (cnav2_ok sys prn f rest Hs Hf). assert (U 11 (q_toe f)) as Hu by apply Hf. unfold U in Hu.
  assert (near_week (q_wn f) (q_toe f) (c2_tow f) = q_wn f + 1) as -> by (unfold near_week; destruct (q_toe f - c2_tow f <? -302400) eqn:E; lia).
  intros H. injection H as H. unfold cnav2_of in H. destruct (q_page f); [|discriminate]. injection H as <-. split; reflexivity.
Qed.
Print Assumptions C79_week.
Definition q2 toi itow toe := C2 toi 0 2300 itow 1000 0 (-3) toe (-12345678) 99 (-4444) 555 (-4000000000) 8000000000 4000000001 (-4000000000) 3000000000 (-44444) (-9999)
  30000 (-30000) 8000000 (-8000000) 1000000 (-1000000) (-5) 3 4 (-30000000) 500000 (-500) (-4000) 77 (-77) 1 252 0 0 7 (Q1 1 0 0 1 (-2) 3 (-4)).
(** on Friday noon, toe an hour and a half ahead: said to be in the next week, a week late *)
Theorem C79_week_refuted : exists sys prn f e, (sys = GPS /\ 1 <= prn <= 32) /\ c2_ok f /\ Z.abs (300 * q_toe f - c2_tow f) <= 5400 /\
  decode_gps_cnav2 (prn2sat sys prn) (enc (c2_fields f)) = Some (Some e) /\ attr Fweek e = Some (I (q_wn f + 1)) /\ near_week (q_wn f) (300 * q_toe f) (c2_tow f) = q_wn f.
Proof.
  exists GPS, 7, (q2 100 66 1602). eexists. split; [split; [reflexivity|lia]|]. split; [unfold c2_ok; cbn; unfold U, S_; cbn; lia|].
  split; [vm_compute; discriminate|]. split; [vm_compute; reflexivity|]. vm_compute. split; reflexivity.
Qed.
Print Assumptions C79_week_refuted.
Example C79_example : option_map (option_map (fun x => (attr Fweek x, attr FM0 x, attr Fe x, attr (Fisc 3) x, attr Ftoe x)))
    (decode_gps_cnav2 (prn2sat GPS 7) (enc (c2_fields (q2 100 10 258)) ++ [true]))
  = Some (Some (Some (I 2300), Some (Sc (-4000000000) 32), Some (V 8000000000 34), Some (V (-4) 35), Some (T (at_week gps0 2300 77400)))).
Proof. vm_compute. reflexivity. Qed.

(** C80: a B1C frame returns, when its third subframe is page 1 and the issues of clock and ephemeris agree, every parameter as sent. *)
Theorem C80_b1c_partial sat f rest : b1_ok f -> decode_bds_b1c sat (enc (b1_fields f) ++ rest) = Some (b1_of sat f).
Proof. exact (b1c_ok sat f rest). Qed.
Print Assumptions C80_b1c_partial.
(** after any sequence of B2a messages, one of type 10, 11, 30, 34 or 40 returns what 10, 11, 30 and 40 last received from
    its satellite say when the first three were consecutive and of one issue *)
Theorem C80_b2a_partial h prn m rest :
  let good (m : bmsg) (rest : bits) := U 18 (a_sow m) /\ abody_ok (a_body m) /\ exists n, length (enc (amsg_fields m) ++ rest) = (8 * n)%nat /\ (n <= 40)%nat in
  Forall (fun e => let '(q, m, rest) := e in 1 <= q <= 63 /\ good m rest) h -> 1 <= prn <= 63 -> good m rest ->
  let l k := last_of (bwant (fun m => aid (a_body m)) prn k) (h ++ [(prn, m, rest)]) in
  exists d d', bfeeds decode_bds_b2a amsg_fields h bds_new = Some d /\
    bfeed decode_bds_b2a amsg_fields (prn, m, rest) d
    = Some (d', if existsb (Z.eqb (aid (a_body m))) [10; 11; 30; 34; 40] then b2a_of (prn2sat BDS prn) (l 10, l 11, l 30, l 40) else None).
Proof. intros good Hh Hp Hm. exact (b2a_any h (prn, m, rest) Hh (conj Hp Hm)). Qed.
Print Assumptions C80_b2a_partial.
(** after any sequence of B2b messages, one of type 10, 30 or 40 returns what 10 and 30 last received from its satellite
    say when they were consecutive.  The time of ephemeris is put in week 0 of BDT *)
Theorem C80_b2b_partial h prn m rest :
  let good (m : b2msg) (rest : bits) := U 20 (d_sow m) /\ dbody_ok (d_body m) /\ exists n, length (enc (dmsg_fields m) ++ rest) = (8 * n)%nat /\ (n <= 64)%nat in
  Forall (fun e => let '(q, m, rest) := e in 1 <= q <= 63 /\ good m rest) h -> 1 <= prn <= 63 -> good m rest ->
  let l k := last_of (bwant (fun m => did (d_body m)) prn k) (h ++ [(prn, m, rest)]) in
  exists d d', bfeeds decode_bds_b2b dmsg_fields h bds_new = Some d /\
    bfeed decode_bds_b2b dmsg_fields (prn, m, rest) d
    = Some (d', if existsb (Z.eqb (did (d_body m))) [10; 30; 40] then b2b_of (prn2sat BDS prn) (fun _ => 0) (l 10, l 30) else None).
Proof. intros good Hh Hp Hm. exact (b2b_any h (prn, m, rest) Hh (conj Hp Hm)). Qed.
Print Assumptions C80_b2b_partial.
Definition xe1 toe := E1 toe 3 (-12345678) 99 (-4444) 555 (-4000000000) 8000000000 4000000001.
Definition xe2 := E2 (-4000000000) 3000000000 (-44444) (-9999) 30000 (-30000) 8000000 (-8000000) 1000000 (-1000000).
Definition xck toc := CK toc (-16000000) 2000000 (-1000).
Definition xsi := SI 1000 (-3) 2 (-4).
Definition xb how soh toe toc := B1F 900 how 533 21 (xe1 toe) xe2 (xck toc) (-2000) 77 (-78) 0 0 1 5 (-8) (X1 17 xsi 0) soh.
(** in the last hour of week 900 a toe of second 0 is that of week 901; it is put at the beginning of week 900 *)
Theorem C80_week_refuted : exists sat f e, b1_ok f /\ decode_bds_b1c sat (enc (b1_fields f)) = Some (Some e) /\
  attr Ftoe e = Some (T (bdt (x_wn f) 0)) /\ near_week (x_wn f) (300 * b_toe (x_e1 f)) (3600 * x_how f + 18 * x_soh f) = x_wn f + 1.
Proof.
  exists 200, (xb 167 190 0 0). eexists. split; [unfold b1_ok, e1_ok, e2_ok, ck_ok, si_ok; cbn; unfold U, S_, si_ok, U, S_; cbn; lia|].
  split; [vm_compute; reflexivity|]. split; vm_compute; reflexivity.
Qed.
Print Assumptions C80_week_refuted.
(** a time of ephemeris and a time of transmission that are the same second are reported 14 s apart *)
Theorem C80_scale_refuted : exists sat f e t, b1_ok f /\ 300 * b_toe (x_e1 f) = 3600 * x_how f + 18 * x_soh f /\
  decode_bds_b1c sat (enc (b1_fields f)) = Some (Some e) /\ attr Ftot e = Some (T (GT t 0)) /\ attr Ftoe e = Some (T (GT (t + 14) 0)).
Proof.
  exists 200, (xb 10 0 120 120). eexists. eexists. split; [unfold b1_ok, e1_ok, e2_ok, ck_ok, si_ok; cbn; unfold U, S_, si_ok, U, S_; cbn; lia|].
  split; [vm_compute; reflexivity|]. split; [vm_compute; reflexivity|]. split; vm_compute; reflexivity.
Qed.
Print Assumptions C80_scale_refuted.
Definition mb10 sow toe := B2M 0 sow (D10 0 (xe1 toe) xe2 5 (-8)).
Definition mb30 sow wn toc := B2M 0 sow (D30 wn 0 (xck toc) (-78) 0 0 0 xsi 17 1).
(** the ephemeris of week 900 is put in week 0, the first of 2006 *)
Theorem C80_b2b_week_refuted : exists h prn m rest wn r k t i u o si s0 v,
  Forall (fun e : bev b2msg => let '(q, m, rest) := e in 1 <= q <= 63 /\ U 20 (d_sow m) /\ dbody_ok (d_body m) /\
    exists n, length (enc (dmsg_fields m) ++ rest) = (8 * n)%nat /\ (n <= 64)%nat) (h ++ [(prn, m, rest)]) /\
  last_of (bwant (fun m => did (d_body m)) prn 30) (h ++ [(prn, m, rest)]) = Some (B2M 0 3601 (D30 wn r k t i u o si s0 v)) /\ wn = 900 /\
  option_map (option_map (fun x => (attr Fweek x, attr Ftoe x, attr Ftoc x))) (ret decode_bds_b2b dmsg_fields h (prn, m, rest))
  = Some (Some (Some (I 900), Some (T (bdt 0 3600)), Some (T (bdt 900 3600)))).
Proof.
  exists [(30, mb10 3600 12, [false; false; false; false; false; false])], 30, (mb30 3601 900 12), [false; false; false; false; false; false].
  unfold mb30. do 10 eexists. split.
  - cbn [app]. repeat (apply Forall_cons; [split; [lia|]; split; [cbn; unfold U; cbn; lia|]; split;
      [cbn; unfold e1_ok, e2_ok, ck_ok, si_ok, U, S_; cbn; lia|exists 60%nat; split; [vm_compute; reflexivity|lia]]|]). apply Forall_nil.
  - split; [vm_compute; reflexivity|]. split; [reflexivity|]. vm_compute. reflexivity.
Qed.
Print Assumptions C80_b2b_week_refuted.
Definition ma10 sow := BM 30 sow (A10 900 5 (-8) 3 21 (xe1 12) 0).
Definition ma11 sow := BM 30 sow (A11 1 0 xe2 0).
Definition ma30 sow := BM 30 sow (A30 0 (xck 12) 533 (-2000) 77 0 (-78) 0).
Definition ma40 sow := BM 30 sow (A40 0 17 xsi 0).
Example C80_example : option_map (option_map (fun x => (attr Fweek x, attr FM0 x, attr Faf2 x, attr Ftgd x, attr Ftoe x)))
    (ret decode_bds_b2a amsg_fields [(30, ma40 1190, []); (30, ma10 1200, []); (31, ma10 1200, []); (30, ma30 1202, [])] (30, ma11 1201, []))
  = Some (Some (Some (I 900), Some (Sc (-4000000000) 32), Some (V (-1000) 66), Some (V (-78) 34), Some (T (bdt 900 3600)))).
Proof. vm_compute. reflexivity. Qed.
Example C80_example_b1c : option_map (option_map (fun x => (attr Fweek x, attr FM0 x, attr Faf2 x, attr Ftgd x)))
    (decode_bds_b1c 200 (enc (b1_fields (xb 10 100 120 120)) ++ [true]))
  = Some (Some (Some (I 900), Some (Sc (-4000000000) 32), Some (V (-1000) 66), Some (V (-78) 34))).
Proof. vm_compute. reflexivity. Qed.
