(** C21: QZSS L6 frame assembly (cssrlib.py:1392-1423). *)
From Verif Require Import Base L6Model L6Spec L6Proofs.
Open Scope Z_scope.

(** Whenever assembled data of k parts is reported, the buffer holds the data parts of the valid
    messages received since the last start message (at most the eleven that fit), all sent by the
    facility of that start message. *)
Theorem C21_assembled h : Forall h_wf h -> let s := run_l6 h l6_init in
  0 < l_cnt s ->
  exists h1 p h2, h = h1 ++ p :: h2 /\ h_ok p = true /\ h_start p = true /\
    (forall q, In q h2 -> h_ok q = true -> h_start q = false /\ h_fac q = h_fac p) /\
    let parts := firstn 11 (filter h_ok (p :: h2)) in
    l_cnt s = Z.of_nat (length parts) /\
    firstn (1695 * length parts) (l_buf s) = concat (map h_data parts).
Proof. exact (l6_assembled h). Qed.
Print Assumptions C21_assembled.

(** Conversely every such history is assembled, unless the start message came together with a
    change of facility. *)
Theorem C21_complete h1 p h2 : Forall h_wf (h1 ++ p :: h2) ->
  h_ok p = true -> h_start p = true ->
  (forall q, last_ok h1 = Some q -> h_fac q = h_fac p) ->
  (forall q, In q h2 -> h_ok q = true -> h_start q = false /\ h_fac q = h_fac p) ->
  let s := run_l6 (h1 ++ p :: h2) l6_init in
  let parts := firstn 11 (filter h_ok (p :: h2)) in
  l_cnt s = Z.of_nat (length parts) /\
  firstn (1695 * length parts) (l_buf s) = concat (map h_data parts).
Proof. exact (l6_complete h1 p h2). Qed.
Print Assumptions C21_complete.

(** A message of another facility discards the partial frame. *)
Theorem C21_discard h a h2 b : Forall h_wf (h ++ a :: h2 ++ [b]) ->
  h_ok a = true -> h_ok b = true -> (forall q, In q h2 -> h_ok q = false) -> h_fac a <> h_fac b ->
  l_cnt (run_l6 (h ++ a :: h2 ++ [b]) l6_init) = -1.
Proof. exact (l6_discard h a h2 b). Qed.
Print Assumptions C21_discard.

(** A call on a complete message returns normally until eleven parts are held. *)
Theorem C21_returns h p : Forall h_wf h -> h_wf p -> l_cnt (run_l6 h l6_init) < 11 ->
  snd (decode_l6msg (fst p) (snd p) (run_l6 h l6_init)) <> L6Exc.
Proof. exact (l6_returns h p). Qed.
Print Assumptions C21_returns.

(* ---------- concrete messages ---------- *)
Definition l6_msg (vendor fac pt sid : Z) (fill : bool) : bits * nat :=
  (bitsof 32 0x1acffc1d ++ bitsof 8 193 ++ bitsof 3 vendor ++ bitsof 2 fac ++ bitsof 2 pt ++
   bitsof 1 sid ++ bitsof 1 0 ++ repeat fill 1695 ++ repeat false 256, 0%nat).
Definition l6_noise : bits * nat := (repeat true 2000, 0%nat).

(** Two parts after a start message, noise in between; the earlier message without start is not used. *)
Example C21_case :
  let h := [l6_msg 5 1 0 0 true; l6_msg 5 1 0 1 true; l6_noise; l6_msg 5 1 0 0 false; l6_msg 5 1 0 0 true] in
  let s := run_l6 h l6_init in
  forallb (fun p => (Nat.leb 1744 (length (fst p)))) h = true /\ map h_ok h = [true; true; false; true; true] /\
  l_cnt s = 3 /\ firstn (Z.to_nat 5085) (l_buf s) = repeat true 1695 ++ repeat false 1695 ++ repeat true 1695 /\
  l_cnt (run_l6 (h ++ [l6_msg 5 2 0 0 true]) l6_init) = -1.
Proof. vm_compute. repeat split. Qed.

(** The start message of a new facility is itself lost, so that frame is never assembled. *)
Example C21_change_with_start :
  l_cnt (run_l6 [l6_msg 5 1 0 1 true; l6_msg 5 2 0 1 true; l6_msg 5 2 0 0 true] l6_init) = -1.
Proof. vm_compute. reflexivity. Qed.

(** Without the restriction on the CLAS transmission pattern the claim is false: a start message
    with pattern 2 raises IndexError after clearing the buffer, and the next message, not a start,
    is taken as the first part of a frame. *)
Theorem C21_pattern_refuted : exists a b,
  snd (decode_l6msg (fst a) (snd a) l6_init) = L6Exc /\
  h_start b = false /\
  snd (decode_l6msg (fst b) (snd b) (run_l6 [a] l6_init)) = L6Ok /\
  l_cnt (run_l6 [a; b] l6_init) = 1.
Proof. exists (l6_msg 5 1 2 1 true), (l6_msg 5 1 0 0 true). vm_compute. repeat split. Qed.
Print Assumptions C21_pattern_refuted.

(** A twelfth part does not fit the 20000-bit buffer and raises bitstruct.Error. *)
Theorem C21_overflow_refuted : exists h p, Forall h_wf h /\ h_wf p /\
  snd (decode_l6msg (fst p) (snd p) (run_l6 h l6_init)) = L6Exc.
Proof.
  exists (l6_msg 5 1 0 1 true :: repeat (l6_msg 5 1 0 0 true) 10), (l6_msg 5 1 0 0 true).
  assert (W : forall sid, h_wf (l6_msg 5 1 0 sid true)).
  { intros sid. split.
    - unfold l6_msg. rewrite !app_length, !repeat_length, !BaseFacts.bitsof_length. cbn. lia.
    - intros _. unfold h_pt, u_at. reflexivity. }
  split; [|split; [apply W|vm_compute; reflexivity]].
  constructor; [apply W|]. apply Forall_forall. intros x Hx. apply repeat_spec in Hx. subst. apply W.
Qed.
Print Assumptions C21_overflow_refuted.
