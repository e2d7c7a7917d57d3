(** RINEX 3/4 observation files as the format describes them: header records in columns 1-60 with a
    label in columns 61-80, epoch records, satellite records of 16-character columns. *)
From Coq Require Import Ascii String.
From Verif Require Export RnxModel.
Notation length := List.length.
Open Scope Z_scope.

Definition sp : ascii := " "%char.
Definition nl : ascii := ascii_of_nat 10.
Definition dch (d : Z) : ascii := ascii_of_N (48 + Z.to_N d).
(** Fortran I3 (0..999), I2 (-9..99), I2.2 (0..99), I4 (1000..9999) *)
Definition I3 (n : Z) : text :=
  if n <? 10 then [sp; sp; dch n] else if n <? 100 then [sp; dch (n / 10); dch (n mod 10)]
  else [dch (n / 100); dch (n / 10 mod 10); dch (n mod 10)].
Definition I2 (n : Z) : text :=
  if n <? 0 then ["-"%char; dch (- n)] else if n <? 10 then [sp; dch n] else [dch (n / 10); dch (n mod 10)].
Definition I22 (n : Z) : text := [dch (n / 10); dch (n mod 10)].
Definition I4 (n : Z) : text := [dch (n / 1000); dch (n / 100 mod 10); dch (n / 10 mod 10); dch (n mod 10)].

(** a header record: content in 60 columns, label in 20 *)
Definition hline (p : text) (lab : string) : text :=
  p ++ repeat sp (60 - length p) ++ lit lab ++ repeat sp (20 - length (lit lab)) ++ [nl].
Definition T_LAB := "SYS / # / OBS TYPES"%string.
Definition S_LAB := "GLONASS SLOT / FRQ #"%string.
Definition cols (l : list text) : text := flat_map (cons sp) l.
(** 13 observation types per record *)
Fixpoint tconts (fuel : nat) (l : list text) : list text :=
  match fuel, l with
  | O, _ | _, [] => []
  | S fuel, _ => hline (repeat sp 6 ++ cols (firstn 13 l)) T_LAB :: tconts fuel (skipn 13 l)
  end.
Definition types_block (c : ascii) (l : list text) : list text :=
  hline (c :: [sp; sp] ++ I3 (Z.of_nat (length l)) ++ cols (firstn 13 l)) T_LAB :: tconts (length l) (skipn 13 l).
(** 8 slot / channel pairs per record *)
Definition sent (e : Z * Z) : text := "R"%char :: I22 (fst e) ++ [sp] ++ I2 (snd e) ++ [sp].
Fixpoint sconts (fuel : nat) (l : list (Z * Z)) : list text :=
  match fuel, l with
  | O, _ | _, [] => []
  | S fuel, _ => hline (repeat sp 4 ++ flat_map sent (firstn 8 l)) S_LAB :: sconts fuel (skipn 8 l)
  end.
Definition slots_block (l : list (Z * Z)) : list text :=
  hline (I3 (Z.of_nat (length l)) ++ [sp] ++ flat_map sent (firstn 8 l)) S_LAB :: sconts (length l) (skipn 8 l).

(** labels of the records that do not affect the tables; the second list is of those the reader evaluates *)
Definition plain_labels : list string :=
  ["COMMENT"; "MARKER NAME"; "MARKER NUMBER"; "MARKER TYPE"; "OBSERVER / AGENCY"; "REC # / TYPE / VERS"; "ANT # / TYPE";
   "PGM / RUN BY / DATE"; "SIGNAL STRENGTH UNIT"; "INTERVAL"; "SYS / PHASE SHIFT"; "SYS / SCALE FACTOR"; "GLONASS COD/PHS/BIS";
   "LEAP SECONDS"; "# OF SATELLITES"; "PRN / # OF OBS"; "RCV CLOCK OFFS APPL"; "SYS / DCBS APPLIED"; "SYS / PCVS APPLIED";
   "ANTENNA: PHASECENTER"; "ANTENNA: B.SIGHT XYZ"; "ANTENNA: ZERODIR AZI"; "ANTENNA: ZERODIR XYZ"; "ANTENNA: DELTA X/Y/Z";
   "CENTER OF MASS: XYZ"]%string.
Definition misc_labels : list string :=
  ["APPROX POSITION XYZ"; "ANTENNA: DELTA H/E/N"; "TIME OF FIRST OBS"; "TIME OF LAST OBS"]%string.

Inductive block :=
| BTypes (c : ascii) (l : list text)
| BSlots (l : list (Z * Z))
| BPlain (p : text) (lab : string)
| BMisc (p : text) (lab : string)
| BVersion (p : text).
Definition block_lines (b : block) : list text :=
  match b with
  | BTypes c l => types_block c l
  | BSlots l => slots_block l
  | BPlain p lab | BMisc p lab => [hline p lab]
  | BVersion p => [hline p "RINEX VERSION / TYPE"]
  end.
(** letters that name constellations *)
Definition sysletter (c : ascii) : option gnss :=
  (match c with
   | "G" => Some GPS | "R" => Some GLO | "E" => Some GAL | "C" => Some BDS | "J" => Some QZS | "S" => Some SBS | "I" => Some IRN
   | _ => None end)%char.
Definition alnum (c : ascii) : bool :=
  let n := N_of_ascii c in ((48 <=? n) && (n <=? 57) || (65 <=? n) && (n <=? 90))%N.
(** an observation type: three letters and digits that name a signal of the constellation *)
Definition is_type (g : gnss) (s : text) (q : rsig) : Prop :=
  length s = 3%nat /\ forallb alnum s = true /\ mk2 g (string_of_list_ascii s) = Some q.
Definition block_ok (verlow : text -> option bool) (misc : text -> option unit) (b : block) : Prop :=
  match b with
  | BTypes c l => (1 <= length l <= 999)%nat /\ exists g, sysletter c = Some g /\ Forall (fun s => exists q, is_type g s q) l
  | BSlots l => (length l <= 999)%nat /\ Forall (fun e => 1 <= fst e <= 32 /\ -7 <= snd e <= 13) l
  | BPlain p lab => length p = 60%nat /\ In lab plain_labels
  | BMisc p lab => length p = 60%nat /\ In lab misc_labels /\ misc (hline p lab) = Some tt
  | BVersion p => length p = 60%nat /\ verlow (firstn 6 (skipn 4 p)) = Some false
  end.
(** one block per constellation, slots distinct *)
Definition btypes (bs : list block) : list (ascii * list text) := flat_map (fun b => match b with BTypes c l => [(c, l)] | _ => [] end) bs.
Definition bslots (bs : list block) : list (Z * Z) := flat_map (fun b => match b with BSlots l => l | _ => [] end) bs.
Definition header_ok verlow misc (bs : list block) : Prop :=
  Forall (block_ok verlow misc) bs /\ NoDup (map fst (btypes bs)) /\ NoDup (map fst (bslots bs)).
(** the numbers of types for which the reader's count of continuation records is right *)
Definition fits (n : nat) : Prop := (n / 14 = (n - 1) / 13)%nat.

(** dictionary {0: l[0], 1: l[1], ...} *)
Definition numbered (l : list rsig) : dict Z rsig := combine (map Z.of_nat (seq 0 (length l))) l.

(* ---------- observations ---------- *)
(** a 16-character column: value text right/left justified in 14, loss-of-lock and strength characters *)
Record ocol := OC { c_pre : nat; c_txt : text; c_post : nat; c_lli : ascii; c_ssi : ascii }.
Definition ocol_text (c : ocol) : text := repeat sp (c_pre c) ++ c_txt c ++ repeat sp (c_post c) ++ [c_lli c; c_ssi c].
Definition nospace (c : ascii) : bool := negb (is_space c).
Definition ocol_ok (c : ocol) : Prop :=
  (c_pre c + length (c_txt c) + c_post c = 14)%nat /\ forallb nospace (c_txt c) = true.
(** a satellite record; the identifier counts QZSS from 193 and SBAS from 100; trailing columns may be missing *)
Record osat := OSat { s_sys : gnss; s_id : Z; s_cols : list ocol }.
Definition osat_text (s : osat) : text :=
  match s_sys s with GPS => "G" | GLO => "R" | GAL => "E" | BDS => "C" | QZS => "J" | SBS => "S" | IRN => "I" | NONE => "?" end%char
  :: I22 (s_id s) ++ flat_map ocol_text (s_cols s) ++ [nl].
Definition osat_ok (s : osat) : Prop := s_sys s <> NONE /\ 0 <= s_id s <= 99 /\ Forall ocol_ok (s_cols s).
Definition osat_prn (s : osat) : Z := match s_sys s with QZS => s_id s + 192 | SBS => s_id s + 100 | _ => s_id s end.
(** an epoch record: [sec] is the seconds field (F11.7 without its first blank) *)
Record oepoch := OEp { e_y : Z; e_mo : Z; e_d : Z; e_h : Z; e_mi : Z; e_sec : text; e_flag : ascii; e_sats : list osat }.
Definition oepoch_lines (e : oepoch) : list text :=
  (lit "> " ++ I4 (e_y e) ++ [sp] ++ I22 (e_mo e) ++ [sp] ++ I22 (e_d e) ++ [sp] ++ I22 (e_h e) ++ [sp] ++ I22 (e_mi e) ++ [sp]
   ++ e_sec e ++ [sp; sp; e_flag e] ++ I3 (Z.of_nat (length (e_sats e))) ++ [nl]) :: map osat_text (e_sats e).
Definition oepoch_ok (e : oepoch) : Prop :=
  1970 <= e_y e <= 2099 /\ 1 <= e_mo e <= 12 /\ 1 <= e_d e <= 31 /\ 0 <= e_h e < 24 /\ 0 <= e_mi e < 60 /\
  length (e_sec e) = 10%nat /\ (length (e_sats e) <= 999)%nat /\ Forall osat_ok (e_sats e).

(** the signals asked for, of one constellation and type, in the order given *)
Definition want (l : list rsig) (g : gnss) (ty : typ) : list rsig :=
  filter (fun q => gnss_eqb (rsys q) g && typ_eqb (rtyp q) ty) l.
(** satellites whose constellation is in the header and asked for *)
Definition wanted (hdr : gnss -> option (list rsig)) (l : list rsig) (s : osat) : bool :=
  match hdr (s_sys s) with Some _ => existsb (fun q => gnss_eqb (rsys q) (s_sys s)) l | None => false end.
Section Val.
Context {V : Type} (zero : V) (fl : text -> option V).
(** the value of a signal: that of its column in the header, zero when blank, missing or not in the header *)
Definition col_value (c : ocol) (v : V) : Prop := match c_txt c with [] => v = zero | _ => fl (c_txt c) = Some v end.
Definition sig_value (types : list rsig) (cs : list ocol) (q : rsig) (v : V) : Prop :=
  (forall i c, nth_error types i = Some q -> nth_error cs i = Some c -> col_value c v) /\
  ((forall i c, nth_error types i = Some q -> nth_error cs i = Some c -> False) -> v = zero).
Definition sig_lli (types : list rsig) (cs : list ocol) (q : rsig) (v : Z) : Prop :=
  v = 1 <-> exists i c, nth_error types i = Some q /\ nth_error cs i = Some c /\ c_lli c = "1"%char.
(** every number in the file is legible *)
Definition legible (cs : list ocol) : Prop := Forall (fun c => c_txt c = [] \/ exists v, fl (c_txt c) = Some v) cs.
End Val.

(** satellites to be stored, and the condition that every stored constellation has the largest number of
    signals of each type *)
Definition kept (hdr : gnss -> option (list rsig)) (l : list rsig) (e : oepoch) : list osat := filter (wanted hdr l) (e_sats e).
Definition otypes := [TC; TL; TD; TS].
Definition uniform (hdr : gnss -> option (list rsig)) (l : list rsig) (e : oepoch) : Prop :=
  forall s ty g', In s (kept hdr l e) -> In ty otypes -> (length (want l g' ty) <= length (want l (s_sys s) ty))%nat.
(** the matrix of a type *)
Definition mat {V} (o : @oobs V) (ty : typ) : list (list V) :=
  match ty with TC => x_P o | TL => x_L o | TD => x_D o | TS => x_S o | TNONE => [] end.

(* ---------- pairing ---------- *)
(** increasing times *)
Fixpoint incr (U : Z) {X} (tx : X -> gtime) (l : list X) : Prop :=
  match l with [] => True | x :: r => Forall (fun y => 0 < timediff U (tx y) (tx x)) r /\ incr U tx r end.
