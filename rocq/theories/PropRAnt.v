(** C98. *)
From Verif Require Import SatModel SatSpec CssrState RtcmSsrSpec MsmSpec RAntModel RAntSpec RAntProofs Base BaseFacts.
From Coq Require Import Sorted.
Notation length := List.length.
Open Scope Z_scope.

Theorem C98_antenna : forall mt s n d msg, ant_sys mt = Some s -> ant_ok s n -> At msg 24 (ant_message mt s n) ->
  exists d', decode_mt80 d msg = Some (d', (24 + length (ant_message mt s n))%nat) /\ ant_effect s n d d'.
Proof. exact dec_ant. Qed.
Print Assumptions C98_antenna.

Definition c98_n (a b : Z) : antm := AM 777 5 true false (Some (14, 2)) true
  [AS a true [AF 0 (Some (Some (-2047))) [Some 15; Some (-15); None]; AF 5 None [Some 0; Some 1; Some 2]]; AS b false [AF 1 (Some None) [Some 3; Some 4; Some 5]]].
Definition c98_m (a : Z) : antm := AM 777 5 true false None true [AS a true [AF 2 (Some (Some 100)) []; AF 3 None []]; AS (a + 1) true []].
Definition c98_d (s : gnss) (a : Z) : dict Z (dict Z acorr) := [(prn2sat s a, [(0, (None, None)); (4, (Some (Some 9), None))])].
Definition c98_run (mt : Z) (s : gnss) (n : antm) (a : Z) := decode_mt80 (c98_d s a) (repeat true 24 ++ ant_message mt s n ++ [true]).
Example C98_case :
  c98_run 84 QZS (c98_n 194 199) 194 = Some ([(prn2sat QZS 194, [(0, (Some (Some (-2047)), Some [Some 15; Some (-15); None])); (4, (Some (Some 9), None)); (5, (None, Some [Some 0; Some 1; Some 2]))]);
    (prn2sat QZS 199, [(1, (Some None, Some [Some 3; Some 4; Some 5]))])], 221%nat) /\
  c98_run 80 GPS (c98_m 7) 7 = Some ([(7, [(0, (None, None)); (4, (Some (Some 9), None)); (2, (Some (Some 100), None)); (3, (None, None))]); (8, [])], 154%nat).
Proof. vm_compute. auto. Qed.
Example C98_ok : ant_ok QZS (c98_n 194 199) /\ ant_ok GPS (c98_m 7).
Proof.
  split; unfold ant_ok, asat_ok, afreq_ok, fits; repeat match goal with
  | |- _ /\ _ => split | |- Forall _ _ => constructor | |- StronglySorted _ _ => constructor | |- True => exact I
  | |- _ => progress cbn [c98_n c98_m n_pid n_iod n_angle n_sats a_prn a_freqs f_no f_nad f_pcv map length slot owns Z.to_nat Pos.to_nat] | |- _ => vm_compute; (reflexivity || (intros ?; discriminate)) | |- _ => cbn; lia end.
Qed.
