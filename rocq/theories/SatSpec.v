(** Specification of satellite numbering, independent of the model: which PRNs exist. *)
From Verif Require Import SatModel.
Open Scope Z_scope.

(** PRN ranges of the constellations (as in the RINEX/IS documents, sizes as in the library) *)
Definition owns (s : gnss) (prn : Z) : Prop :=
  match s with
  | GPS => 1 <= prn <= 32
  | GAL => 1 <= prn <= 36
  | QZS => 193 <= prn <= 209
  | BDS => 1 <= prn <= 63
  | GLO => 1 <= prn <= 32
  | SBS => 120 <= prn <= 158
  | IRN => 1 <= prn <= 14
  | NONE => False
  end.

(** a number that denotes a satellite *)
Definition satnum (n : Z) : Prop := 1 <= n <= 233.

(** RINEX identifier of a satellite: constellation letter and two digits *)
Definition rinex_number (s : gnss) (prn : Z) : Z :=
  match s with QZS => prn - 192 | SBS => prn - 100 | _ => prn end.
