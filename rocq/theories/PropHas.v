(** C24: Galileo HAS page collection (cssr_has.py:174-231). *)
From Verif Require Import Base BaseFacts HasModel HasSpec HasProofs HasLive.
Open Scope Z_scope.

(** C24: a message is delivered only from pages of one identifier received since the last delivery,
    with different page identifiers, at least as many as the size announced by the first of them;
    an identifier among the last ten delivered is not delivered again. *)
Theorem C24_delivery {Msg} (solve : list Z -> list (list Z) -> option Msg) h c m s' :
  Forall complete (h ++ [c]) ->
  decode_cnav solve c (fst (cnav_run solve h)) = (s', Some (Some m)) ->
  exists h1 h2 mid ps p0,
    since_delivery solve h h1 h2 /\
    snd (cnav_run solve (h ++ [c])) = snd (cnav_run solve h) ++ [(mid, m)] /\
    incl ps (hist_pages (h2 ++ [c])) /\
    Forall (fun p => p_mid p = mid) ps /\ NoDup (map p_pid ps) /\
    hd_error ps = Some p0 /\ p_ms p0 <= Z.of_nat (length ps) /\
    ~ In mid (last_ten (map fst (snd (cnav_run solve h)))) /\
    exists rows, solve (map (fun p => p_pid p - 1) ps) rows = Some m /\
      (Forall (fun p => p_pid p <> 0) (hist_pages (h2 ++ [c])) -> rows = map p_data ps).
Proof. exact (cnav_delivers_only_complete solve h c m s'). Qed.
Print Assumptions C24_delivery.

(** ... and a fresh message whose pages arrive within the time-out is delivered (or the matrix
    inversion fails) with the call that completes it. *)
Theorem C24_collects_partial {Msg} (solve : list Z -> list (list Z) -> option Msg) h cs c p0 :
  Forall complete (h ++ cs ++ [c]) -> mid_ (fst (cnav_run solve h)) = -1 ->
  hd_error (hist_pages (cs ++ [c])) = Some p0 -> ~ In (p_mid p0) (last_ten (map fst (snd (cnav_run solve h)))) ->
  icnt (fst (cnav_run solve h)) + Z.of_nat (length cs) <= 2 * p_ms p0 ->
  Z.of_nat (distinct_pages (p_mid p0) (hist_pages cs)) < p_ms p0 ->
  p_ms p0 <= Z.of_nat (distinct_pages (p_mid p0) (hist_pages (cs ++ [c]))) ->
  snd (cnav_run solve (h ++ cs)) = snd (cnav_run solve h) /\
  (snd (decode_cnav solve c (fst (cnav_run solve (h ++ cs)))) = None \/
   exists m, snd (decode_cnav solve c (fst (cnav_run solve (h ++ cs)))) = Some (Some m) /\
             snd (cnav_run solve (h ++ cs ++ [c])) = snd (cnav_run solve h) ++ [(p_mid p0, m)]).
Proof. exact (cnav_collects solve h cs c p0). Qed.
Print Assumptions C24_collects_partial.

(* ---------- concrete pages ---------- *)
Definition e6 (hass mid ms pid byte : Z) : bits :=
  repeat false 14 ++ bitsof 2 hass ++ bitsof 2 0 ++ bitsof 2 1 ++ bitsof 5 mid ++ bitsof 5 (ms - 1) ++
  bitsof 8 pid ++ concat (repeat (bitsof 8 byte) 53) ++ repeat false 34.
Definition keep (idx : list Z) (rows : list (list Z)) := Some (idx, map (fun r => nth 0 r 0) rows).

Example C24_case :
  let h := [[e6 1 3 2 7 10; e6 2 3 2 8 11; e6 1 4 2 9 12]; []; [e6 1 3 2 7 10]; [e6 1 3 2 20 13]; [e6 1 3 2 21 13; e6 1 3 2 22 14]] in
  Forall complete h /\ snd (cnav_run keep h) = [(3, ([6; 19], [10; 13]))].
Proof.
  split; [|vm_compute; reflexivity].
  repeat constructor; apply Nat.leb_le; vm_compute; reflexivity.
Qed.

(** The time-out counter also runs while nothing is being collected: after idle calls the first
    page of a message is thrown away and the message is not delivered when it is complete. *)
Theorem C24_idle_refuted : exists h cs c p0,
  Forall complete (h ++ cs ++ [c]) /\ mid_ (fst (cnav_run keep h)) = -1 /\
  hd_error (hist_pages (cs ++ [c])) = Some p0 /\ snd (cnav_run keep h) = [] /\
  p_ms p0 <= Z.of_nat (distinct_pages (p_mid p0) (hist_pages (cs ++ [c]))) /\
  snd (cnav_run keep (h ++ cs ++ [c])) = [].
Proof.
  exists [[]; []; []; []; []; []; []; []; []], [[e6 1 3 2 7 10]], [e6 1 3 2 8 11], (page_of (e6 1 3 2 7 10)).
  split; [repeat constructor; apply Nat.leb_le; vm_compute; reflexivity|].
  repeat split; vm_compute; congruence.
Qed.
Print Assumptions C24_idle_refuted.

(** Page identifier 0 (reserved) is stored in the row of page 255: the rows used are then not those
    of the pages collected. *)
Theorem C24_pid0_refuted : exists c ps rows,
  complete c /\ call_pages c = ps /\ NoDup (map p_pid ps) /\
  snd (cnav_run (fun i r => Some (i, r)) [c]) = [(3, (map (fun p => p_pid p - 1) ps, rows))] /\
  rows <> map p_data ps.
Proof.
  exists [e6 1 3 2 0 10; e6 1 3 2 255 11]. eexists. exists [repeat 11 53; repeat 11 53].
  split; [repeat constructor; apply Nat.leb_le; vm_compute; reflexivity|].
  split; [reflexivity|]. split; [vm_compute; repeat constructor; cbn; intuition discriminate|].
  split; [vm_compute; reflexivity|]. vm_compute. discriminate.
Qed.
Print Assumptions C24_pid0_refuted.
