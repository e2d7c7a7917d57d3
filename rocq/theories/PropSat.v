(** Properties C01, C02, C03: satellite numbering (gnss.py). *)
From Verif Require Import SatModel SatSpec SatProofs.
Open Scope Z_scope.

(** C01 *)
Theorem C01_sat_numbering_bijection :
  (forall s p, owns s p -> sat2prn (prn2sat s p) = (s, p) /\ satnum (prn2sat s p)) /\
  (forall n, satnum n ->
     owns (fst (sat2prn n)) (snd (sat2prn n)) /\ prn2sat (fst (sat2prn n)) (snd (sat2prn n)) = n) /\
  (forall n, satnum n -> exists! sp, owns (fst sp) (snd sp) /\ prn2sat (fst sp) (snd sp) = n).
Proof. exact (conj sat2prn_prn2sat (conj prn2sat_sat2prn prn2sat_unique)). Qed.
Print Assumptions C01_sat_numbering_bijection.
Example C01_case : owns QZS 199 /\ prn2sat QZS 199 = 75 /\ satnum 75 /\ sat2prn 75 = (QZS, 199).
Proof. repeat split; try (cbn; lia); reflexivity. Qed.

(** C02 *)
Theorem C02_sat_id_roundtrip :
  (forall n, satnum n ->
     exists s, sat2id n = Some s /\ String.length s = 3%nat /\ id2sat s = Ret n) /\
  (forall a b s, satnum a -> satnum b -> sat2id a = Some s -> sat2id b = Some s -> a = b).
Proof. exact (conj id_roundtrip id_injective). Qed.
Print Assumptions C02_sat_id_roundtrip.
Example C02_case : satnum 200 /\ sat2id 200 = Some "S39"%string /\ id2sat "S39" = Ret 200.
Proof. repeat split; try (cbn; lia); reflexivity. Qed.

(** C02: what any identifier with two digits is read as *)
Theorem C02_id_read : forall c k, 0 <= k < 100 ->
  id2sat (String c (String (dig (k / 10)) (String (dig (k mod 10)) EmptyString)))
  = Ret (match char2sys c with
         | NONE => -1 | QZS => prn2sat QZS (k + 192) | SBS => prn2sat SBS (k + 100)
         | s => prn2sat s k end).
Proof. exact id_read. Qed.
Print Assumptions C02_id_read.
Example C02_read_case : 0 <= 7 < 100 /\ id2sat "J07" = Ret 75.
Proof. split; [lia|reflexivity]. Qed.

(** C03 is false of the code: GPS PRN 33 is not a GPS satellite but gets Galileo E01's number *)
Theorem C03_prn_range_refuted :
  exists s p s' p', ~ owns s p /\ sat2prn (prn2sat s p) = (s', p') /\ owns s' p' /\ s' <> s.
Proof. exact prn_alias. Qed.
Print Assumptions C03_prn_range_refuted.

(** C03: what does hold. An unowned PRN never lands on a satellite of its *own* constellation, and a
    number outside 1..233 never decodes to an owned PRN. *)
Theorem C03_prn_range_partial :
  (forall s p, s <> NONE -> ~ owns s p ->
     ~ satnum (prn2sat s p) \/ fst (sat2prn (prn2sat s p)) <> s) /\
  (forall n, ~ satnum n -> ~ owns (fst (sat2prn n)) (snd (sat2prn n))).
Proof. exact (conj prn2sat_not_owned sat2prn_outside). Qed.
Print Assumptions C03_prn_range_partial.
Example C03_case : ~ owns BDS 64 /\ fst (sat2prn (prn2sat BDS 64)) = GLO.
Proof. split; [cbn; lia|reflexivity]. Qed.
