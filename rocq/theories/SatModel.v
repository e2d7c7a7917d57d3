(** Satellite numbering: /repo/src/cssrlib/gnss.py:137-185, 1194-1289. *)
From Verif Require Export Base.
From Coq Require Export String Ascii.
From Coq Require Import DecimalString.
Open Scope Z_scope.

(** gnss.py:137-149 class uGNSS (IntEnum); [NONE] = -1. *)
Inductive gnss := GPS | GAL | QZS | BDS | GLO | SBS | IRN | NONE.

Definition gnss_eqb (a b : gnss) : bool :=
  match a, b with
  | GPS, GPS | GAL, GAL | QZS, QZS | BDS, BDS | GLO, GLO | SBS, SBS | IRN, IRN | NONE, NONE => true
  | _, _ => false
  end.

(** gnss.py:152-168 *)
Definition GPSMAX := 32. Definition GALMAX := 36. Definition QZSMAX := 17. Definition BDSMAX := 63.
Definition GLOMAX := 32. Definition SBSMAX := 39. Definition IRNMAX := 14.
Definition GPSMIN := 0.
Definition GALMIN := GPSMIN + GPSMAX.
Definition QZSMIN := GALMIN + GALMAX.
Definition BDSMIN := QZSMIN + QZSMAX.
Definition GLOMIN := BDSMIN + BDSMAX.
Definition SBSMIN := GLOMIN + GLOMAX.
Definition IRNMIN := SBSMIN + SBSMAX.
Definition MAXSAT := GPSMAX + GALMAX + QZSMAX + BDSMAX + GLOMAX + SBSMAX + IRNMAX.

(** gnss.py:1194-1212 *)
Definition prn2sat (sys : gnss) (prn : Z) : Z :=
  match sys with
  | GPS => prn
  | GAL => prn + GALMIN
  | QZS => prn - 192 + QZSMIN
  | GLO => prn + GLOMIN
  | BDS => prn + BDSMIN
  | SBS => prn - 119 + SBSMIN
  | IRN => prn + IRNMIN
  | NONE => 0
  end.

(** gnss.py:1214-1241 *)
Definition sat2prn (sat : Z) : gnss * Z :=
  if sat >? MAXSAT then (NONE, 0)
  else if sat >? IRNMIN then (IRN, sat - IRNMIN)
  else if sat >? SBSMIN then (SBS, sat + 119 - SBSMIN)
  else if sat >? GLOMIN then (GLO, sat - GLOMIN)
  else if sat >? BDSMIN then (BDS, sat - BDSMIN)
  else if sat >? QZSMIN then (QZS, sat + 192 - QZSMIN)
  else if sat >? GALMIN then (GAL, sat - GALMIN)
  else (GPS, sat).

(** gnss.py:1274-1287 char2sys for a single character (the list form maps this function) *)
Definition char2sys (c : ascii) : gnss :=
  (match c with
   | "G" => GPS | "R" => GLO | "E" => GAL | "C" => BDS | "J" => QZS | "S" => SBS | "I" => IRN
   | _ => NONE
   end)%char.

(** gnss.py:1289-1302 sys2char for a single uGNSS value ('?' when unknown); also the table of
    sat2id (gnss.py:1247-1248) *)
Definition sys2char (s : gnss) : ascii :=
  (match s with
   | GPS => "G" | GLO => "R" | GAL => "E" | BDS => "C" | QZS => "J" | SBS => "S" | IRN => "I"
   | NONE => "?"
   end)%char.

(** Python ['%02d' % z] *)
Definition fmt02d (z : Z) : string :=
  let s := NilZero.string_of_int (Z.to_int z) in
  if (String.length s <? 2)%nat then String "0" s else s.

(** gnss.py:1244-1256; [None] models the return value -1 for an unknown constellation
    (satellite number above MAXSAT) *)
Definition sat2id (sat : Z) : option string :=
  let (sys, prn) := sat2prn sat in
  match sys with
  | NONE => None
  | _ =>
    let prn := match sys with QZS => prn - 192 | SBS => prn - 100 | _ => prn end in
    Some (String (sys2char sys) (fmt02d prn))
  end.

(** Python int(s) on a string of at most two characters: surrounding white space is stripped, one
    optional sign, at least one digit; anything else raises ValueError ([None]).
    (Underscores cannot be legal in two characters.) *)
Definition is_space (c : ascii) : bool :=
  let n := N_of_ascii c in
  ((9 <=? n)%N && (n <=? 13)%N) || ((28 <=? n)%N && (n <=? 32)%N).
Definition digit (c : ascii) : option Z :=
  let n := N_of_ascii c in
  if (48 <=? n)%N && (n <=? 57)%N then Some (Z.of_N n - 48) else None.
Definition int2 (s : string) : option Z :=
  match s with
  | String a EmptyString => digit a
  | String a (String b EmptyString) =>
    if is_space a || Ascii.eqb a "+" then digit b
    else if Ascii.eqb a "-" then do d <- digit b; Some (- d)
    else if is_space b then digit a
    else do x <- digit a; do y <- digit b; Some (10 * x + y)
  | _ => None
  end.

(** gnss.py:1259-1271: [Err] = exception (empty id or malformed number), [Ret (-1)] = unknown
    constellation letter. *)
Inductive ret := Err | Ret (v : Z).
Definition id2sat (id : string) : ret :=
  match id with
  | EmptyString => Err                                   (* id_[0]: IndexError *)
  | String c r =>
    match char2sys c with
    | NONE => Ret (-1)
    | sys =>
      match int2 (substring 0 2 r) with
      | None => Err
      | Some prn =>
        let prn := match sys with QZS => prn + 192 | SBS => prn + 100 | _ => prn end in
        Ret (prn2sat sys prn)
      end
    end
  end.
