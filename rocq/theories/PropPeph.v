(** Properties C28, C29 and C54: precise ephemerides. [U] is the number of ticks per second. *)
From Verif Require Import PephModel PephProofs PephField PephInterp TimeSpec.
From mathcomp Require Import all_ssreflect all_algebra.
Import GRing.Theory Num.Theory.
Local Open Scope ring_scope.

(** C28: out of coverage nothing is returned; otherwise the search finds the interval that contains
    the requested time (the first or last interval outside the table) *)
Theorem C28_search : forall U nmin ts time, Z.le 2 nmin -> increasing U ts ->
  (no_cover U nmin ts time /\ pindex U nmin (Z.of_nat (length ts)) ts time = Some None) \/
  (~ no_cover U nmin ts time /\ exists index,
     pindex U nmin (Z.of_nat (length ts)) ts time = Some (Some index) /\
     Z.le Z0 index /\ Z.lt (Z.add index 1) (Z.of_nat (length ts)) /\
     (Z.lt (tk U ts index) (ticks U time) \/ index = Z0) /\
     (Z.le (ticks U time) (tk U ts (Z.add index 1)) \/ Z.add index 2 = Z.of_nat (length ts))).
Proof. exact pindex_ok. Qed.
Print Assumptions C28_search.

(** ... and the window of eleven epochs lies in the table, contains this interval, and is centred
    on it unless it touches an end of the table. *)
Theorem C28_window : forall ne index, Z.le 11 ne -> Z.le Z0 index -> Z.lt (Z.add index 1) ne ->
  Z.le Z0 (pfirst ne index) /\ Z.lt (Z.add (pfirst ne index) 10) ne /\
  Z.le (pfirst ne index) index /\ Z.le (Z.add index 1) (Z.add (pfirst ne index) 10) /\
  (Z.le 5 index -> Z.lt (Z.add index 5) ne -> pfirst ne index = Z.sub index 5).
Proof. exact pfirst_ok. Qed.
Print Assumptions C28_window.

Definition ex_ts : list gtime := [seq GT (Z.mul 900 (Z.of_nat k)) Z0 | k <- iota 0 20].
Example C28_case :
  pindex 10 11 20 ex_ts (GT 8200 5) = Some (Some (Z.of_nat 9)) /\ pfirst 20 9 = Z.of_nat 4 /\
  pindex 10 11 20 ex_ts (GT 8100 0) = Some (Some (Z.of_nat 8)) /\
  pindex 10 11 20 ex_ts (GT (-900) 0) = Some (Some (Z.of_nat 0)) /\ pindex 10 11 20 ex_ts (GT (-901) 0) = Some None /\
  pindex 10 11 20 ex_ts (GT 18000 0) = Some (Some (Z.of_nat 18)) /\ pfirst 20 18 = Z.of_nat 9 /\
  pindex 10 11 20 ex_ts (GT 18000 1) = Some None /\ pindex 10 11 10 ex_ts (GT 900 0) = Some None.
Proof. by vm_compute. Qed.

(** C29: interppol gives the value at zero of the one polynomial of degree < n through the points *)
Theorem C29_interppol (F : fieldType) : forall (x y : seq F) n, (0 < n)%N -> size x = n -> uniq x ->
  exists p : {poly F}, (size p <= n)%N /\ (forall k, (k < n)%N -> p.[x`_k] = y`_k) /\
    (forall q : {poly F}, (size q <= n)%N -> (forall k, (k < n)%N -> q.[x`_k] = y`_k) -> q = p) /\
    interppol x y n = p.[0].
Proof. exact (@interppol_exists F). Qed.
Print Assumptions C29_interppol.
Theorem C29_reproduces (F : fieldType) : forall (x y : seq F) n (p : {poly F}),
  (0 < n)%N -> size x = n -> uniq x -> (size p <= n)%N ->
  (forall k, (k < n)%N -> p.[x`_k] = y`_k) -> interppol x y n = p.[0].
Proof. exact (@interppol_ok F). Qed.
Print Assumptions C29_reproduces.
Example C29_case : interppol [:: - 1%:Q; 1; 3%:Q] [:: 6%:Q; 4%:Q; 10%:Q] 3 = 4%:Q.
Proof. by apply/eqP; vm_compute. Qed.

(** Together with the search and the rotation to the frame of the requested time: inside coverage,
    unless a row of the window is entirely zero, an orbit that is a polynomial of degree at most ten
    in the inertial frame is reproduced exactly. *)
Theorem C29_orbit (F : numFieldType) (sn cs : F -> F) (omge : F) (U : Z) : Z.lt Z0 U ->
  forall tab time,
  increasing U [seq p.1 | p <- tab] ->
  ~ no_cover U 11 [seq p.1 | p <- tab] time ->
  exists index first,
    [/\ Z.le Z0 index /\ Z.lt (Z.add index 1) (len tab),
        (Z.lt (ticks U (t_at tab index)) (ticks U time) \/ index = Z0) /\
        (Z.le (ticks U time) (ticks U (t_at tab (Z.add index 1))) \/ Z.add index 2 = len tab),
        Z.le Z0 first /\ Z.lt (Z.add first 10) (len tab),
        Z.le first index /\ Z.le (Z.add index 1) (Z.add first 10) &
        (Z.le 5 index -> Z.lt (Z.add index 5) (len tab) -> first = Z.sub index 5)] /\
    ((exists k, (k <= 10)%N /\ zero_row (r_at tab (Z.add first (Z.of_nat k)))) ->
      pephpos sn cs omge U (len tab) tab time = Some None) /\
    ((forall k, (k <= 10)%N -> ~~ zero_row (r_at tab (Z.add first (Z.of_nat k)))) ->
     exists x y z, pephpos sn cs omge U (len tab) tab time = Some (Some (x, y, z,
        clk_between U time (t_at tab index, r_at tab index) (t_at tab (Z.add index 1), r_at tab (Z.add index 1)))) /\
     forall (PX PY PZ : {poly F}),
       (forall th, cs th ^+ 2 + sn th ^+ 2 = 1) ->
       (size PX <= 11)%N -> (size PY <= 11)%N -> (size PZ <= 11)%N ->
       (forall k, (k <= 10)%N -> let i := Z.add first (Z.of_nat k) in let t := dt_at U tab time i in
          earth_fixed sn cs (omge * t) PX.[t] PY.[t] PZ.[t] (r_at tab i)) ->
       [/\ x = Some PX.[0], y = Some PY.[0] & z = Some PZ.[0]]).
Proof. exact (@pephpos_ok F sn cs omge U). Qed.
Print Assumptions C29_orbit.

(** clocks are interpolated linearly inside an interval and held outside the table *)
Theorem C29_clock (F : numFieldType) (U : Z) : Z.lt Z0 U -> forall time (a b : gtime * prow F),
  Z.lt (ticks U a.1) (ticks U b.1) ->
  (Z.le (ticks U time) (ticks U a.1) -> clk_between U time a b = r_c a.2) /\
  (Z.le (ticks U b.1) (ticks U time) -> clk_between U time a b = r_c b.2) /\
  (Z.lt (ticks U a.1) (ticks U time) -> Z.lt (ticks U time) (ticks U b.1) ->
   (forall A B : F, r_c a.2 = Some (A - B * tsec F U (timediff U time a.1)) ->
                    r_c b.2 = Some (A - B * tsec F U (timediff U time b.1)) -> clk_between U time a b = Some A) /\
   (r_c a.2 = None \/ r_c b.2 = None -> clk_between U time a b = None)).
Proof. exact (@clk_between_ok F U). Qed.
Print Assumptions C29_clock.
Example C29_clock_case :
  clk_between 10 (GT 3 0) (GT 0 0, PR None None None (Some 5%:Q)) (GT 12 0, PR None None None (Some 9%:Q)) = Some 6%:Q.
Proof. by rewrite /clk_between /=; congr Some. Qed.

(** clock files: nothing outside the coverage, the first (last) value up to 900 s before (after) the
    table, linear interpolation inside; a value of exactly zero counts as missing, an unknown one
    (NaN) makes the result unknown *)
Theorem C29_clock_file (F : numFieldType) (U : Z) : Z.lt Z0 U ->
  forall (tab : list (gtime * option F)) time, increasing U [seq p.1 | p <- tab] ->
  (no_cover U 2 [seq p.1 | p <- tab] time -> pephclk U (Z.of_nat (length tab)) tab time = Some None) /\
  (~ no_cover U 2 [seq p.1 | p <- tab] time -> exists i,
    [/\ Z.le Z0 i /\ Z.lt (Z.add i 1) (Z.of_nat (length tab)),
       Z.lt (ticks U (ct_at tab i)) (ticks U time) \/ i = Z0 &
       Z.le (ticks U time) (ticks U (ct_at tab (Z.add i 1))) \/ Z.add i 2 = Z.of_nat (length tab)] /\
    let t0 := ct_at tab i in let t1 := ct_at tab (Z.add i 1) in
    let c0 := cv_at tab i in let c1 := cv_at tab (Z.add i 1) in
    let r := pephclk U (Z.of_nat (length tab)) tab time in
    [/\ Z.le (ticks U time) (ticks U t0) -> (c0 = Some 0 -> r = Some None) /\ (c0 <> Some 0 -> r = Some (Some c0)),
       Z.le (ticks U t1) (ticks U time) -> (c1 = Some 0 -> r = Some None) /\ (c1 <> Some 0 -> r = Some (Some c1)) &
       Z.lt (ticks U t0) (ticks U time) -> Z.lt (ticks U time) (ticks U t1) ->
         (c0 = Some 0 \/ c1 = Some 0 -> r = Some None) /\
         (c0 <> Some 0 -> c1 <> Some 0 ->
            (c0 = None \/ c1 = None -> r = Some (Some None)) /\
            (forall A B : F, c0 = Some (A - B * tsec F U (timediff U time t0)) ->
                             c1 = Some (A - B * tsec F U (timediff U time t1)) -> r = Some (Some (Some A))))]).
Proof. exact (@pephclk_ok F U). Qed.
Print Assumptions C29_clock_file.
Definition ex_clk : list (gtime * option rat) :=
  [:: (GT 0 0, Some 5%:Q); (GT 12 0, Some 9%:Q); (GT 24 0, Some 0); (GT 36 0, None)].
Example C29_clock_file_case :
  pephclk 10 4 ex_clk (GT 3 0) = Some (Some (Some 6%:Q)) /\ pephclk 10 4 ex_clk (GT (-3) 0) = Some (Some (Some 5%:Q)) /\
  pephclk 10 4 ex_clk (GT 18 0) = Some None /\ pephclk 10 4 ex_clk (GT 40 0) = Some (Some None) /\
  pephclk 10 4 ex_clk (GT 937 0) = Some None.
Proof. by repeat split; rewrite /pephclk /=; congr Some; congr Some; congr Some. Qed.

(** C54 *)
Definition fx_row (F : numFieldType) (k : nat) : prow F :=
  if k == 3%N then PR (Some 0) (Some 0) (Some 0) None else PR (Some 1) (Some 1) (Some 1) (Some 1).
Definition fx_tab (F : numFieldType) : list (gtime * prow F) :=
  [seq (GT (Z.mul 900 (Z.of_nat k)) Z0, fx_row F k) | k <- iota 0 11].
Lemma fx_inc (F : numFieldType) : increasing 1000 [seq p.1 | p <- fx_tab F].
Proof.
  move=> i j Hij Hj. rewrite /tk. change (Z.of_nat (length [seq p.1 | p <- fx_tab F])) with (Z.of_nat 11) in Hj.
  have Hn : forall k, (k < 11)%coq_nat -> ticks 1000 (List.nth k [seq p.1 | p <- fx_tab F] (GT Z0 Z0)) = Z.mul 900000 (Z.of_nat k).
  { do 11! (case=> [|k]; [by []|move: k]). lia. }
  rewrite !Hn; lia.
Qed.

(** A position that is marked as missing in the file (0, 0, 0 with an unknown clock, which is also
    what write_sp3 writes for a missing one) is taken as a position. *)
Theorem C54_missing_refuted (F : numFieldType) (sn cs : F -> F) (omge : F) :
  r_at (fx_tab F) 3 = PR (Some 0) (Some 0) (Some 0) None /\
  exists x y z c, pephpos sn cs omge 1000 (len (fx_tab F)) (fx_tab F) (GT 2700 0) = Some (Some (x, y, z, c)).
Proof.
  split=> //. have HU : Z.lt Z0 1000 by [].
  case: (@pephpos_ok F sn cs omge 1000 HU (fx_tab F) (GT 2700 0) (fx_inc F)).
  { by rewrite /no_cover /=; vm_compute; move=> [|[]]. }
  move=> index [first [[H1 H2 [H3 H4] H5 H6] [_ H]]].
  have Hf : first = Z0. { move: H4. change (len (fx_tab F)) with (Z.of_nat 11). rewrite /NMAX. lia. }
  subst first. case: H => [k Hk|x [y [z [E _]]]]; last by do 4 eexists; exact: E.
  move: k Hk. do 11! (case=> [_|k]; [rewrite /zero_row /= ?oner_eq0 ?andbF //|move: k]). by [].
Qed.
Print Assumptions C54_missing_refuted.

(** At the end of the allowed extrapolation peph2pos raises TypeError. *)
Theorem C54_edge_refuted (F : numFieldType) (sn cs : F -> F) (omge : F) :
  ~ no_cover 1000 11 [seq p.1 | p <- fx_tab F] (GT 9900 0) /\
  peph2pos sn cs omge 1000 (len (fx_tab F)) (fx_tab F) (GT 9900 0) = None.
Proof.
  have Hc : ~ no_cover 1000 11 [seq p.1 | p <- fx_tab F] (GT 9900 0) by rewrite /no_cover /=; vm_compute; move=> [|[]].
  split=> //. rewrite /peph2pos.
  case: (@pephpos_ok F sn cs omge 1000 _ (fx_tab F) (GT 9900 0) (fx_inc F) Hc) => //.
  move=> index [first [[H1 H2 [H3 H4] H5 H6] [_ H]]].
  have Hf : first = Z0. { move: H4. change (len (fx_tab F)) with (Z.of_nat 11). rewrite /NMAX. lia. }
  subst first. case: H => [k Hk|x [y [z [-> _]]]].
  - move: k Hk. do 11! (case=> [_|k]; [rewrite /zero_row /= ?oner_eq0 ?andbF //|move: k]). by [].
  - by [].
Qed.
Print Assumptions C54_edge_refuted.

(** What does hold: inside coverage one millisecond further as well, peph2pos does not raise. *)
Theorem C54_returns_partial (F : numFieldType) (sn cs : F -> F) (omge : F) (U : Z) : Z.lt Z0 U ->
  forall tab time, increasing U [seq p.1 | p <- tab] ->
  (forall i, Z.le Z0 i -> Z.lt i (len tab) -> ~~ zero_row (r_at tab i)) ->
  ~ no_cover U 11 [seq p.1 | p <- tab] (timeadd U time (Z.div U 1000)) ->
  peph2pos sn cs omge U (len tab) tab time <> None.
Proof. exact (@peph2pos_ok F sn cs omge U). Qed.
Print Assumptions C54_returns_partial.
