(** Galileo and GPS/QZSS broadcast ephemerides assembled from pages and subframes. *)
From Verif Require Import SatModel TimeModel TimeSpec CssrState RawModel RawSpec RawFacts RawGal RawLnav RawProofs Base BaseFacts.
From Coq Require Import Lia ZifyBool.
Notation length := List.length.
Open Scope Z_scope.

(** the value of an attribute *)
Definition fld_eq_dec (a b : fld) : {a = b} + {a <> b}.
Proof. decide equality; apply Z.eq_dec. Defined.
Fixpoint attr (a : fld) (e : eph) : option val :=
  match e with [] => None | (f, v) :: r => if fld_eq_dec f a then Some v else attr a r end.

(** C40: after any sequence of pages and subframes of all satellites, an I/NAV page of type 1 to 5 returns
    the ephemeris of the five words last received from its satellite, if they are all there and of one
    issue, and nothing otherwise; a page of another type returns nothing. *)
Theorem C40_inav h t p : Forall rx_ok h -> page_ok p ->
  exists s s' r, feeds h raw_new = Some s /\ feed (RInav t p) s = Some (s', r) /\
    (1 <= wtype (g_word p) <= 5 ->
       let l k := latest (inav_word (g_prn p) k) (h ++ [RInav t p]) in
       r = inav_of (prn2sat GAL (g_prn p)) t (l 1, l 2, l 3, l 4, l 5)) /\
    (~ 1 <= wtype (g_word p) <= 5 -> r = None).
Proof.
  intros Hh Hp. destruct (raw_any h (RInav t p) Hh Hp) as (s & s' & E & F). exists s, s', (result_of (h ++ [RInav t p]) (RInav t p)).
  split; [exact E|]. split; [exact F|]. pose proof (wtype_range _ (proj2 Hp)). cbn [result_of]. split; intros Hk.
  - now replace ((wtype (g_word p) =? 0) || (wtype (g_word p) >? 5)) with false by lia.
  - now replace ((wtype (g_word p) =? 0) || (wtype (g_word p) >? 5)) with true by lia.
Qed.
Print Assumptions C40_inav.
(** the same for LNAV: an ephemeris is returned exactly when subframes 1, 2 and 3 of the satellite have
    been received, and in their latest copies the issues of data agree *)
Definition one_issue (o1 o2 o3 : option sframe) : Prop :=
  match o1, o2, o3 with
  | Some f1, Some f2, Some f3 =>
      match s_body f1, s_body f2, s_body f3 with
      | B1 _ _ _ _ iodc _ _ _ _ _ _ _ _ _ _ _, B2 iode _ _ _ _ _ _ _ _ _ _ _, B3 _ _ _ _ _ _ _ iode3 _ _ => iode = iode3 /\ iode = iodc mod 256
      | _, _, _ => False
      end
  | _, _, _ => False
  end.
Theorem C40_lnav h week sys prn f rest : Forall rx_ok h -> rx_ok (RLnav week sys prn f rest) ->
  exists s s' r, feeds h raw_new = Some s /\ feed (RLnav week sys prn f rest) s = Some (s', r) /\
    (let l k := latest (lnav_frame sys prn k) (h ++ [RLnav week sys prn f rest]) in
     r <> None <-> one_issue (l 1) (l 2) (l 3)).
Proof.
  intros Hh Hp. destruct (raw_any h _ Hh Hp) as (s & s' & E & F). exists s, s'. eexists. split; [exact E|]. split; [exact F|].
  cbv zeta. cbn [result_of]. cbv zeta. unfold one_issue, lnav_of.
  destruct (latest (lnav_frame sys prn 1) _) as [f1|]; [|tauto]. destruct (latest (lnav_frame sys prn 2) _) as [f2|]; [|tauto].
  destruct (latest (lnav_frame sys prn 3) _) as [f3|]; [|tauto].
  destruct (s_body f1); try tauto. destruct (s_body f2); try tauto. destruct (s_body f3); try tauto.
  destruct (Z.eqb_spec iode iode0) as [->|N]; cbn [andb]; [|split; [congruence|tauto]].
  destruct (Z.eqb_spec iode0 (iodc mod 256)); [|split; [congruence|tauto]]. split; [tauto|discriminate].
Qed.
Print Assumptions C40_lnav.

(** C68: an F/NAV page never returns anything but the ephemeris of the four pages last received from the
    satellite, all of one issue, and page 1 returns it whenever they are complete.  Partial: pages 2 to 4 are
    compared with the satellite number in bits that belong to the issue of data, and usually return nothing. *)
Theorem C68_fnav_partial h prn p rest : Forall rx_ok h -> 1 <= prn <= 36 -> fpage_ok p ->
  exists s s' r, feeds h raw_new = Some s /\ feed (RFnav prn p rest) s = Some (s', r) /\
    let l k := latest (fnav_page prn k) (h ++ [RFnav prn p rest]) in
    (r = None \/ r = fnav_of (prn2sat GAL prn) (l 1, l 2, l 3, l 4)) /\
    (ftype p = 1 -> r = fnav_of (prn2sat GAL prn) (l 1, l 2, l 3, l 4)).
Proof.
  intros Hh Hq Hp. destruct (raw_any h (RFnav prn p rest) Hh (conj Hq Hp)) as (s & s' & E & F).
  exists s, s'. eexists. split; [exact E|]. split; [exact F|]. cbv zeta. cbn [result_of]. cbv zeta. split.
  - destruct (ftype p >? 4); [now left|]. destruct (_ =? _); [now right|now left].
  - intros H1. rewrite H1. change (1 >? 4) with false. cbv iota.
    rewrite (latest_hit (fnav_page prn 1) h (RFnav prn p rest) p) by (cbn [fnav_page]; rewrite H1, Z.eqb_refl; reflexivity).
    destruct p; cbn [ftype] in H1; try discriminate; [|cbn in Hp; lia]. cbn [svid_bits svid_of]. now rewrite Z.eqb_refl.
Qed.
Print Assumptions C68_fnav_partial.
(** the four pages are there and of one issue, but page 4 returns nothing *)
Definition fx1 := F1 11 85 5000 (-123456) 789 (-3) 107 5 6 (-7) 0 (-12) 0 1200 300100 0 0.
Definition fx2 := F2 85 (-2000000000) (-5600) 123456 2852000000 1900000000 (-45) 1200 300110 0.
Definition fx3 := F3 85 650000000 (-1234567890) 8000 (-100) 200 6000 (-77) 5000 1200 300120 0.
Definition fx4 := F4 85 (-5) 9 0.
Definition hx := [RFnav 11 fx1 []; RFnav 11 fx2 []; RFnav 11 fx3 []].
Definition returned (h : list rx) (e : rx) : option (option eph) := do s <- feeds h raw_new; do r <- feed e s; Some (snd r).
Theorem C68_fnav_refuted : exists h prn p rest, Forall rx_ok h /\ 1 <= prn <= 36 /\ fpage_ok p /\ 1 <= ftype p <= 4 /\
  (let l k := latest (fnav_page prn k) (h ++ [RFnav prn p rest]) in fnav_of (prn2sat GAL prn) (l 1, l 2, l 3, l 4) <> None) /\
  returned h (RFnav prn p rest) = Some None.
Proof.
  exists hx, 11, fx4, []. split; [|split; [lia|]].
  - repeat (apply Forall_cons; [cbn; unfold U, S_; cbn; lia|]). apply Forall_nil.
  - split; [cbn; unfold U, S_; cbn; lia|]. split; [cbn; lia|]. split; [discriminate|]. vm_compute. reflexivity.
Qed.
Example C68_example : returned (hx ++ [RFnav 11 fx4 []]) (RFnav 11 fx1 []) = Some (fnav_of (prn2sat GAL 11) (Some fx1, Some fx2, Some fx3, Some fx4))
  /\ fnav_of (prn2sat GAL 11) (Some fx1, Some fx2, Some fx3, Some fx4) <> None.
Proof. split; [vm_compute; reflexivity|discriminate]. Qed.

Definition wx1 := W1 85 5000 (-2000000000) 123456 2852000000 0.
Definition wx2 := W2 85 1900000000 650000000 (-1234567890) (-45) 0.
Definition wx3 := W3 85 (-5600) 8000 (-100) 200 6000 (-77) 107.
Definition wx4 iod := W4 iod 11 (-5) 9 5010 (-123456) 789 (-3) 0.
Definition wx5 := W5 5 6 (-7) 0 (-12) 13 0 1 1 0 1200 300100 0.
Definition gp w := RInav 0 (GP 11 w 1 77 [true; false]).
(** a change of issue during reception: nothing until word 4 of the first issue is replaced *)
Example C40_example_inav :
  returned [gp wx1; gp wx2; gp wx3; gp (wx4 84)] (gp wx5) = Some None /\
  returned [gp wx5; gp wx3; gp wx1; gp (wx4 84); gp wx2; RInav 0 (GP 12 (wx4 85) 0 0 [])] (gp (wx4 85))
    = Some (inav_of (prn2sat GAL 11) 0 (Some wx1, Some wx2, Some wx3, Some (wx4 85), Some wx5)) /\
  option_map (attr Fcode) (inav_of (prn2sat GAL 11) 0 (Some wx1, Some wx2, Some wx3, Some (wx4 85), Some wx5)) = Some (Some (I 513)).
Proof. repeat split; vm_compute; reflexivity. Qed.

(** C41: the ephemeris returned by an LNAV subframe has, in every attribute other than the time of
    transmission, the value sent.  Partial: the eccentricity only below 2^31 (half of its range). *)
Theorem C41_fields_partial h week sys prn f rest f1 f2 f3 : Forall rx_ok h -> rx_ok (RLnav week sys prn f rest) ->
  let l k := latest (lnav_frame sys prn k) (h ++ [RLnav week sys prn f rest]) in
  l 1 = Some f1 -> l 2 = Some f2 -> l 3 = Some f3 ->
  (match s_body f2 with B2 _ _ _ _ _ e _ _ _ _ _ _ => e < 2 ^ 31 | _ => True end) ->
  exists s s' r, feeds h raw_new = Some s /\ feed (RLnav week sys prn f rest) s = Some (s', r) /\
    match r, lnav_of week (prn2sat sys prn) (fun e => e) (at_week gps0) (Some f1, Some f2, Some f3) with
    | Some x, Some y => forall a, a <> Ftot -> attr a x = attr a y
    | None, None => True
    | _, _ => False
    end.
Proof.
  cbv zeta. intros Hh Hp E1 E2 E3 He. destruct (raw_any h _ Hh Hp) as (s & s' & E & F). exists s, s'. eexists. split; [exact E|]. split; [exact F|].
  cbn [result_of]. cbv zeta. rewrite E1, E2, E3.
  assert (Hh' : Forall rx_ok (h ++ [RLnav week sys prn f rest])) by (apply Forall_app; split; [exact Hh|apply Forall_cons; [exact Hp|apply Forall_nil]]).
  pose proof (lnav_slots sys _ prn 2 Hh') as Ok. rewrite E2 in Ok. destruct Ok as [[_ Ok] _].
  unfold lnav_of. destruct (s_body f1); try exact Logic.I. destruct (s_body f2); try exact Logic.I. destruct (s_body f3); try exact Logic.I.
  destruct ((iode =? iode0) && (iode =? iodc mod 256)); [|exact Logic.I].
  assert (Es : sgn 32 e = e).
  { cbn [sbody_ok] in Ok. unfold U in Ok. unfold sgn. replace (e <? 2 ^ (Z.of_nat 32 - 1)) with true by (cbn; lia). reflexivity. }
  rewrite Es. intros a Ha. cbn [attr].
  repeat match goal with |- context [if fld_eq_dec ?x a then _ else _] => destruct (fld_eq_dec x a) as [<-|]; [first [reflexivity|congruence]|] end.
  reflexivity.
Qed.
Print Assumptions C41_fields_partial.
Definition b1x := B1 1000 1 2 0 341 0 0 0 0 0 (-11) 18900 0 (-5) 123456 0.
Definition b2x e := B2 85 (-300) 12000 (-1000000000) 77 e (-80) 2702000000 18900 0 0 0.
Definition b3x := B3 5 (-900000000) (-6) 650000000 7000 1234567890 (-20000) 85 (-33) 0.
Definition sfx b := SF 1 50400 0 1 0 b [] [].
Definition lx (b : sbody) := RLnav 2300 GPS 7 (sfx b) [].
Definition lnav_full e : option eph := lnav_of 2300 (prn2sat GPS 7) (fun e => e) (at_week gps0) (Some (sfx b1x), Some (sfx (b2x e)), Some (sfx b3x)).
Ltac lok := split; [left; split; [reflexivity|lia]|]; unfold sframe_ok, U, S_; cbn; unfold U, S_; cbn; lia.
(** an eccentricity of 2^31 or more (e >= 0.25) comes back negative *)
Theorem C41_refuted : exists h week sys prn f rest, Forall rx_ok h /\ rx_ok (RLnav week sys prn f rest) /\
  exists x, returned h (RLnav week sys prn f rest) = Some (Some x) /\
    attr Fe x = Some (V (2147483648 - 2 ^ 32) 33) /\
    (let l k := latest (lnav_frame sys prn k) (h ++ [RLnav week sys prn f rest]) in
     option_map (attr Fe) (lnav_of week (prn2sat sys prn) (fun e => e) (at_week gps0) (l 1, l 2, l 3)) = Some (Some (V 2147483648 33))).
Proof.
  exists [lx b1x; lx (b2x 2147483648)], 2300, GPS, 7, (sfx b3x), [].
  split; [repeat (apply Forall_cons; [lok|]); apply Forall_nil|].
  split; [lok|]. eexists. split; [vm_compute; reflexivity|]. split; vm_compute; reflexivity.
Qed.
Print Assumptions C41_refuted.
(** the time of transmission is 26 years late: it is counted from the BeiDou origin *)
Theorem C41_tot_refuted : exists h week sys prn f rest, Forall rx_ok h /\ rx_ok (RLnav week sys prn f rest) /\
  exists x, returned h (RLnav week sys prn f rest) = Some (Some x) /\
    attr Ftot x = Some (T (GT (86400 * 13149 + 604800 * 3048 + 302400) 0)) /\
    (let l k := latest (lnav_frame sys prn k) (h ++ [RLnav week sys prn f rest]) in
     option_map (attr Ftot) (lnav_of week (prn2sat sys prn) (fun e => e) (at_week gps0) (l 1, l 2, l 3))
       = Some (Some (T (GT (86400 * 3657 + 604800 * 3048 + 302400) 0)))).
Proof.
  exists [lx b1x; lx (b2x 5000)], 2300, GPS, 7, (sfx b3x), [].
  split; [repeat (apply Forall_cons; [lok|]); apply Forall_nil|].
  split; [lok|]. eexists. split; [vm_compute; reflexivity|]. split; vm_compute; reflexivity.
Qed.
Print Assumptions C41_tot_refuted.
Example C41_example : option_map (option_map (attr FOMG0)) (returned [lx (b2x 5000); lx b1x] (lx b3x)) = Some (Some (Some (Sc (-900000000) 31))).
Proof. vm_compute. reflexivity. Qed.
