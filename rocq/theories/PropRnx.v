(** RINEX observation files: header tables, observations and pairing of epochs. *)
From Coq Require Import Ascii String ListDec.
From Verif Require Import RnxModel RnxSpec RnxProofs RnxObsProofs CssrFacts Base BaseFacts.
From Coq Require Import Lia.
Notation length := List.length.
Open Scope Z_scope.

(** C46: whatever other records surround them, the observation types of every constellation are
    registered completely and in order, and reading stops right behind the header.  Partial: only for
    numbers of types for which the reader's count of continuation records is right. *)
Theorem C46_header_partial verlow misc bs pe rest : header_ok verlow misc bs -> length pe = 60%nat ->
  (forall c l, In (c, l) (btypes bs) -> fits (length l)) ->
  exists m d, decode_obsh verlow misc (flat_map block_lines bs ++ hline pe "END OF HEADER" :: rest) (HST [] []) = Some (0, HST m d, rest) /\
    (forall c l g, In (c, l) (btypes bs) -> sysletter c = Some g ->
       exists qs, Forall2 (is_type g) l qs /\ gget g m = Some (numbered qs)) /\
    (forall g, (forall c l, In (c, l) (btypes bs) -> sysletter c <> Some g) -> gget g m = None).
Proof.
  intros H P F. destruct (header_ok_read verlow misc bs pe rest H P F) as (m & d & E & R & O & _ & _).
  exists m, d. split; [exact E|]. split; [|exact O]. intros c l g I S. exact (R c l I g S).
Qed.
Print Assumptions C46_header_partial.
(** up to 26 types per constellation the count is always right *)
Theorem C46_fits_26 n : (1 <= n <= 26)%nat -> fits n.
Proof.
  intros H. unfold fits. do 27 (destruct n as [|n]; [try lia; reflexivity|]). lia.
Qed.
Print Assumptions C46_fits_26.
(** for every other number the reader ends with an exception *)
Theorem C46_fails verlow misc c l f s fuel g : (1 <= length l <= 999)%nat -> ~ fits (length l) -> sysletter c = Some g ->
  Forall (fun s => exists q, is_type g s q) l -> hdr_loop verlow misc fuel (types_block c l ++ f) s = None.
Proof. apply header_fails. Qed.
Print Assumptions C46_fails.
Definition many (n : nat) : list text := repeat (lit "C1C") n.
Lemma many_ok n : Forall (fun s => exists q, is_type GPS s q) (many n).
Proof. apply Forall_forall. intros s I. apply repeat_spec in I. subst. eexists. split; [reflexivity|]. split; vm_compute; reflexivity. Qed.
Theorem C46_refuted : exists bs pe rest, header_ok (fun _ => Some false) (fun _ => Some tt) bs /\ length pe = 60%nat /\
  decode_obsh (fun _ => Some false) (fun _ => Some tt) (flat_map block_lines bs ++ hline pe "END OF HEADER" :: rest) (HST [] []) = None.
Proof.
  exists [BTypes "G" (many 27)], (repeat sp 60), []. split; [|split; [reflexivity|vm_compute; reflexivity]].
  split; [|split].
  - constructor; [|constructor]. cbn. split; [lia|]. exists GPS. split; auto. apply (many_ok 27).
  - cbn. constructor; [tauto|constructor].
  - constructor.
Qed.
Print Assumptions C46_refuted.
Definition ex_types : list text := map lit ["C1C"; "L1C"; "D1C"; "S1C"; "C2W"; "L2W"; "D2W"; "S2W"; "C2L"; "L2L"; "D2L"; "S2L"; "C5Q"; "L5Q"; "D5Q"; "S5Q"]%string.
Definition ex_hdr : list block :=
  [BPlain (repeat sp 60) "COMMENT"; BTypes "G" ex_types; BTypes "E" [lit "C1C"; lit "L1C"]; BSlots [(1, 1); (2, -4); (3, 5); (4, 6); (5, 1); (6, -4); (7, 5); (8, 6); (9, -2)]].
Example C46_nontrivial :
  exists m d, decode_obsh (fun _ => Some false) (fun _ => Some tt) (flat_map block_lines ex_hdr ++ [hline (repeat sp 60) "END OF HEADER"; lit "rest"]) (HST [] []) = Some (0, HST m d, [lit "rest"]) /\
  length (match gget GPS m with Some x => x | None => [] end) = 16%nat /\
  nth_error (match gget GPS m with Some x => x | None => [] end) 13 = Some (13, RS GPS TL 517) /\
  length (flat_map block_lines ex_hdr) = 6%nat /\ zget (prn2sat GLO 9) d = Some (-2) /\ zget (prn2sat GLO 2) d = Some (-4).
Proof. eexists. eexists. split; [vm_compute; reflexivity|]. repeat split; vm_compute; reflexivity. Qed.

(** C65: the GLONASS frequency channel table is the one of the header, over any number of records *)
Theorem C65_slots verlow misc bs pe rest : header_ok verlow misc bs -> length pe = 60%nat ->
  (forall c l, In (c, l) (btypes bs) -> fits (length l)) ->
  exists st, decode_obsh verlow misc (flat_map block_lines bs ++ hline pe "END OF HEADER" :: rest) (HST [] []) = Some (0, st, rest) /\
    (forall k ch, In (k, ch) (bslots bs) -> zget (prn2sat GLO k) (h_glo st) = Some ch) /\
    (forall z, (forall k ch, In (k, ch) (bslots bs) -> prn2sat GLO k <> z) -> zget z (h_glo st) = None).
Proof.
  intros H P F. destruct (header_ok_read verlow misc bs pe rest H P F) as (m & d & E & _ & _ & A & B).
  exists (HST m d). auto.
Qed.
Print Assumptions C65_slots.
Example C65_nontrivial : length (slots_block [(1, 1); (2, -4); (3, 5); (4, 6); (5, 1); (6, -4); (7, 5); (8, 6); (9, -2)]) = 2%nat /\
  header_ok (fun _ => Some false) (fun _ => Some tt) ex_hdr.
Proof.
  split; [reflexivity|]. split; [|split].
  - unfold ex_hdr. repeat constructor; cbn; auto; try lia.
    + exists GPS. split; auto. unfold ex_types. cbn [map]. repeat constructor; eexists; (split; [reflexivity|]); split; vm_compute; reflexivity.
    + exists GAL. split; auto. repeat constructor; eexists; (split; [reflexivity|]); split; vm_compute; reflexivity.
  - cbn. repeat constructor; cbn; intuition discriminate.
  - cbn. repeat constructor; cbn; intuition lia.
Qed.

(** C66: every value of an epoch ends up in the row of its satellite and the column of its signal.
    [l]: the signals given to setSignals; [hdr]: the types of the header.  Partial: only when every stored
    constellation has the largest number of signals of each type. *)
Theorem C66_observations_partial {V} (zero : V) fl fsec U hdr m l t junk e sec rest :
  NoDup l -> set_signals l [] = Some t ->
  (forall g, gget g m = option_map numbered (hdr g)) ->
  (forall g types, hdr g = Some types -> NoDup types /\ Forall (fun q => rsys q = g) types) ->
  Forall (fun x => exists c r, x = c :: r /\ c <> ">"%char) junk ->
  oepoch_ok e -> fsec (e_sec e) = Some sec -> Forall (fun s => wanted hdr l s = true -> legible fl (s_cols s)) (e_sats e) ->
  uniform hdr l e ->
  exists o, decode_obs zero fl fsec U m t (junk ++ oepoch_lines e ++ rest) = Some (Some o, rest) /\
    x_t o = epoch2time U (EP (e_y e) (e_mo e) (e_d e) (e_h e) (e_mi e) sec) /\
    x_sat o = map (fun s => prn2sat (s_sys s) (osat_prn s)) (kept hdr l e) /\
    (forall ty, In ty otypes -> length (mat o ty) = length (kept hdr l e)) /\
    forall k s types, nth_error (kept hdr l e) k = Some s -> hdr (s_sys s) = Some types ->
      (forall ty, In ty otypes -> exists row, nth_error (mat o ty) k = Some row /\ length row = length (want l (s_sys s) ty) /\
         forall j q, nth_error (want l (s_sys s) ty) j = Some q -> exists v, nth_error row j = Some v /\ sig_value zero fl types (s_cols s) q v) /\
      exists row, nth_error (x_lli o) k = Some row /\
         forall j q, nth_error (want l (s_sys s) TL) j = Some q -> exists v, nth_error row j = Some v /\ sig_lli types (s_cols s) q v.
Proof.
  intros NL ST HM HT J O S L UN. destruct (tab_set l NL) as (t' & E & T). rewrite ST in E. inversion E; subst t'. clear E.
  rewrite (junk_skip zero fl fsec U m t junk _ J).
  destruct (epoch_read zero fl fsec U hdr m t l T NL HM HT e sec rest O S L) as [A _].
  exists (mkobs zero fl U hdr l e sec). split; [now apply A|]. split; [reflexivity|]. split; [|split].
  - cbn. now rewrite map_map.
  - intros ty TY. destruct TY as [<-|[<-|[<-|[<-|[]]]]]; cbn; now rewrite !map_length.
  - intros k s types K HS. destruct (HT _ _ HS) as [NT FT].
    assert (KI := nth_error_In _ _ K). unfold kept in KI. apply filter_In in KI as [SI SW].
    assert (SO : osat_ok s). { apply (proj1 (Forall_forall osat_ok (e_sats e))); auto. apply O. }
    assert (LG := proj1 (Forall_forall _ _) L s SI SW). destruct SO as (_ & _ & FC).
    assert (TO : types_of hdr s = types) by (unfold types_of; now rewrite HS).
    assert (R : forall {X} (f : Z * orow -> list X), nth_error (map f (map (sat_row zero fl hdr l) (kept hdr l e))) k = Some (f (sat_row zero fl hdr l s))).
    { intros X f. rewrite map_map. apply (map_nth_error (fun x => f (sat_row zero fl hdr l x))). exact K. }
    split.
    + intros ty TY.
      assert (Q : nth_error (mat (mkobs zero fl U hdr l e sec) ty) k = Some (map (vmap (cval zero fl (s_cols s)) zero types) (want l (s_sys s) ty))).
      { rewrite <- TO. destruct TY as [<-|[<-|[<-|[<-|[]]]]]; cbn [mat mkobs x_P x_L x_D x_S].
        - exact (R _ (fun r => w_pr (snd r))).
        - exact (R _ (fun r => w_cp (snd r))).
        - exact (R _ (fun r => w_dp (snd r))).
        - exact (R _ (fun r => w_cn (snd r))). }
      eexists. split; [exact Q|]. split; [apply map_length|]. intros j q W. eexists. split; [apply map_nth_error; exact W|]. now apply sig_value_ok.
    + eexists. split; [exact (R _ (fun r => w_ll (snd r)))|]. intros j q W. eexists. split; [|apply sig_lli_ok; exact NT].
      cbn [sat_row snd row_of w_ll]. rewrite <- TO. apply map_nth_error. exact W.
Qed.
Print Assumptions C66_observations_partial.
(** otherwise the epoch cannot be read at all *)
Theorem C66_nonuniform {V} (zero : V) fl fsec U hdr m l t junk e sec rest :
  NoDup l -> set_signals l [] = Some t ->
  (forall g, gget g m = option_map numbered (hdr g)) ->
  (forall g types, hdr g = Some types -> NoDup types /\ Forall (fun q => rsys q = g) types) ->
  Forall (fun x => exists c r, x = c :: r /\ c <> ">"%char) junk ->
  oepoch_ok e -> fsec (e_sec e) = Some sec -> Forall (fun s => wanted hdr l s = true -> legible fl (s_cols s)) (e_sats e) ->
  ~ uniform hdr l e -> decode_obs zero fl fsec U m t (junk ++ oepoch_lines e ++ rest) = None.
Proof.
  intros NL ST HM HT J O S L UN. destruct (tab_set l NL) as (t' & E & T). rewrite ST in E. inversion E; subst t'. clear E.
  rewrite (junk_skip zero fl fsec U m t junk _ J).
  now apply (proj2 (epoch_read zero fl fsec U hdr m t l T NL HM HT e sec rest O S L)).
Qed.
Print Assumptions C66_nonuniform.
(** setSignals accepts exactly the lists without repetition *)
Theorem C66_signals l : NoDup l <-> exists t, set_signals l [] = Some t.
Proof.
  split.
  - intros N. destruct (tab_set l N) as (t & E & _). eauto.
  - intros [t E]. assert (D : forall a b : rsig, {a = b} + {a <> b}) by (repeat decide equality).
    destruct (ListDec.NoDup_dec D l) as [N|N]; auto. destruct (tab_dup l t N E).
Qed.
Print Assumptions C66_signals.

Definition xh (g : gnss) : option (list rsig) :=
  match g with GPS => Some [RS GPS TC 103; RS GPS TL 103; RS GPS TC 224; RS GPS TL 224] | GLO => Some [RS GLO TL 103; RS GLO TC 103] | _ => None end.
Definition xm : dict gnss (dict Z rsig) :=
  [(GPS, numbered [RS GPS TC 103; RS GPS TL 103; RS GPS TC 224; RS GPS TL 224]); (GLO, numbered [RS GLO TL 103; RS GLO TC 103])].
Definition xcol (s : string) (lli : ascii) : ocol := OC (14 - length (lit s)) (lit s) 0 lli "7".
Definition xe (lli : ascii) : oepoch :=
  OEp 2026 7 4 12 30 (lit "15.0000000") "0"
   [OSat GPS 5 [xcol "20000.125" " "; xcol "333.5" lli; OC 14 [] 0 sp sp; OC 14 [] 0 sp sp]; OSat GLO 7 [xcol "44.75" "1"; xcol "19000.5" " "]; OSat GPS 31 [xcol "7.5" " "]].
(** decimal text with its last three digits as a number *)
Definition xfl (t : text) : option Z := digits 0 (filter (fun c => negb (Ascii.eqb c ".")) t).
Definition xgood : list rsig := [RS GPS TC 103; RS GPS TL 103; RS GLO TC 103; RS GLO TL 103].
Definition xrun (l : list rsig) (lli : ascii) : option (option (@oobs Z) * list text) :=
  match set_signals l [] with Some t => decode_obs 0 xfl xfl 1 xm t (oepoch_lines (xe lli)) | None => None end.
Example C66_nontrivial : exists o, xrun xgood "1" = Some (Some o, []) /\ x_sat o = [5; prn2sat GLO 7; 31] /\
  x_P o = [[20000125]; [190005]; [75]] /\ x_L o = [[3335]; [4475]; [0]] /\ x_lli o = [[1]; [1]; [0]] /\ x_D o = [[]; []; []].
Proof. eexists. split; [vm_compute; reflexivity|]. vm_compute. repeat split. Qed.
(** two signals of GPS and one of GLONASS: the epoch is refused *)
Theorem C66_refuted : exists l e m t hdr, NoDup l /\ set_signals l [] = Some t /\ (forall g, gget g m = option_map numbered (hdr g)) /\ oepoch_ok e /\
  Forall (fun s => legible xfl (s_cols s)) (e_sats e) /\ decode_obs 0 xfl xfl 1 m t (oepoch_lines e) = None.
Proof.
  exists ([RS GPS TC 103; RS GPS TC 224; RS GLO TC 103]), (xe "1"), xm. eexists. exists xh. repeat split; cbn; auto; try lia.
  - repeat constructor; cbn; intuition discriminate.
  - intros []; reflexivity.
  - repeat constructor; try discriminate; cbn; try lia.
  - unfold legible. cbn [e_sats xe]. repeat (apply Forall_cons || apply Forall_nil);
      cbn [s_cols]; repeat (apply Forall_cons || apply Forall_nil); try (left; reflexivity); right; eexists; vm_compute; reflexivity.
Qed.
Print Assumptions C66_refuted.
(** an odd loss-of-lock indicator other than 1 (bit 0 set) is not reported *)
Theorem C66_lli_refuted : exists o, xrun xgood "3" = Some (Some o, []) /\ x_lli o = [[0]; [1]; [0]].
Proof. eexists. split; [vm_compute; reflexivity|]. vm_compute. reflexivity. Qed.
Print Assumptions C66_lli_refuted.

(** C67: rover and base epochs: the pair returned is within the threshold, no earlier rover or base epoch has
    a partner, and nothing is returned only if no pair exists *)
Theorem C67_sync {A B} U th (ta : A -> gtime) (tb : B -> gtime) fa fb : 0 <= th -> incr U ta fa -> incr U tb fb ->
  match sync_obs U th ta tb fa fb with
  | Some (a, b, ra, rb) => exists sa sb, fa = sa ++ a :: ra /\ fb = sb ++ b :: rb /\ Z.abs (timediff U (ta a) (tb b)) <= th /\
      (forall x y, In x sa -> In y fb -> ~ Z.abs (timediff U (ta x) (tb y)) <= th) /\
      (forall x y, In x fa -> In y sb -> ~ Z.abs (timediff U (ta x) (tb y)) <= th)
  | None => forall x y, In x fa -> In y fb -> ~ Z.abs (timediff U (ta x) (tb y)) <= th
  end.
Proof. intros. apply sync_ok; auto. Qed.
Print Assumptions C67_sync.
Example C67_nontrivial : sync_obs 10 1 (fun z => GT z 0) (fun z => GT z 1) [1; 2; 5; 6] [3; 4; 6; 7] = Some (6, 6, [], [7]).
Proof. reflexivity. Qed.
