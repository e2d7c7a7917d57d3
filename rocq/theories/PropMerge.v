(** C99. *)
From Verif Require Import CssrState MergeModel MergeSpec MergeProofs Base.
Notation length := List.length.
Open Scope Z_scope.

(** full statement: the same for all corrections received, [net_ready] only for networks in use, and a satellite merged has no correction that the other
    object does not have *)
Theorem C99_merge_partial : forall V G (o s : cs V G), m_fac s = m_fac o -> NoDup (m_sats o) ->
  (forall x, In x (m_sats o) -> ~ In x (m_sats s) -> zget x (m_sig o) <> None) -> Forall2 net_ready (m_lc o) (m_lc s) ->
  exists s' add, merge_cssr o s = Some (true, s') /\ m_fac s' = m_fac s /\
    m_sats s' = m_sats s ++ add /\ NoDup add /\ (forall x, In x add <-> In x (m_sats o) /\ ~ In x (m_sats s)) /\
    (forall x, In x add -> zget x (m_sig s') = zget x (m_sig o)) /\ (forall x, ~ In x add -> zget x (m_sig s') = zget x (m_sig s)) /\
    length (m_lc s') = length (m_lc s) /\
    (forall k a b c, nth_error (m_lc o) k = Some a -> nth_error (m_lc s) k = Some b -> nth_error (m_lc s') k = Some c -> net_merged a b c).
Proof. exact @merge_ok. Qed.
Print Assumptions C99_merge_partial.

Theorem C99_facility : forall V G (o s : cs V G), m_fac s <> m_fac o -> merge_cssr o s = Some (false, s).
Proof. intros V G o s H. unfold merge_cssr. apply Z.eqb_neq in H. now rewrite H. Qed.
Print Assumptions C99_facility.

(** one network with a satellite to merge whose other object has received no clocks there: an error *)
Theorem C99_no_clock_error : forall V (o s : loc V) sat, fresh_sat o s sat -> l_d o FClk = None -> merge_net o s = None.
Proof.
  intros V o s sat H E. apply fresh_filter in H. unfold merge_net. destruct (filter _ (l_sats o)) as [|x l]; [contradiction|]. cbn [merge_sats].
  destruct (l_nsat s); [|reflexivity]. cbn [bind groups merge_groups]. now rewrite E.
Qed.
Print Assumptions C99_no_clock_error.

Definition dd (a : list (Z * Z)) : dicts Z := fun f => match f with FClk => Some a | FOrb => Some [(5, 50); (6, 60)] | FIode => Some [(5, 51); (6, 61)] | FCb => Some [(6, 62)] | FSq => Some [(7, 70)]
  | FCi => Some [(7, 71)] | FDst => Some [(7, 72)] | _ => Some [] end.
Definition empty : dicts Z := fun _ => Some [].
Definition c99_o : cs Z Z := CS 2 [3; 5; 6] [(3, 30); (5, 35); (6, 36)] [LOC [5; 3; 6; 7] (Some 4) (dd [(5, 1); (3, 2)])].
Definition c99_s (clk : list (Z * Z)) : cs Z Z := CS 2 [1; 3] [(1, 10); (3, 13)] [LOC [3; 1] (Some 2) (fun f => match f with FClk => Some clk | _ => Some [] end)].
(** a clock left over from before stays with a satellite merged without a clock *)
Theorem C99_stale_refuted : exists o s s' : cs Z Z, exists a b c, merge_cssr o s = Some (true, s') /\ Forall2 net_ready (m_lc o) (m_lc s) /\
  nth_error (m_lc o) 0 = Some a /\ nth_error (m_lc s) 0 = Some b /\ nth_error (m_lc s') 0 = Some c /\
  exists sat, fresh_sat a b sat /\ look (l_d a) FClk sat = None /\ look (l_d c) FClk sat = Some 99.
Proof.
  exists c99_o, (c99_s [(3, 7); (6, 99)]). do 4 eexists. split; [vm_compute; reflexivity|]. split.
  { constructor; [|constructor]. unfold net_ready, fresh_sat. cbn [l_sats l_nsat l_d c99_o c99_s]. split; [repeat constructor; cbn; intuition discriminate|]. split; [discriminate|].
    split; [intros f; destruct f; split; discriminate|]. intros f sat [Hi _]. cbn in Hi. destruct Hi as [<-|[<-|[<-|[<-|[]]]]]; destruct f; vm_compute; congruence. }
  split; [reflexivity|]. split; [reflexivity|]. split; [reflexivity|].
  exists 6. split; [split; [cbn; auto|cbn; intuition discriminate]|]. split; vm_compute; reflexivity.
Qed.
Print Assumptions C99_stale_refuted.
Definition c99_run := do (b, s) <- merge_cssr c99_o (c99_s [(3, 7)]);
  Some (b, m_sats s, m_sig s, map (fun l => (l_sats l, l_nsat l, map (l_d l) [FClk; FIode; FOrb; FUra; FCb; FPb; FSq; FCi; FDst])) (m_lc s)).
Example C99_case : c99_run = Some (true, [1; 3; 5; 6], [(1, 10); (3, 13); (5, 35); (6, 36)],
  [([3; 1; 5; 6; 7], Some 5, [Some [(3, 7); (5, 1)]; Some [(5, 51); (6, 61)]; Some [(5, 50); (6, 60)]; Some []; Some [(6, 62)]; Some []; Some [(7, 70)]; Some [(7, 71)]; Some [(7, 72)]])]).
Proof. vm_compute. reflexivity. Qed.
