(** SBAS L1 messages, independently of the decoder: masks, fast and long-term corrections, grid delays. *)
From Verif Require Import SatModel CssrState CssrSpec SbasModel.
From Verif Require Export Base FieldSpec.
Notation length := List.length.
Open Scope Z_scope.

(* ---------- PRN mask (type 1) ---------- *)
(** the slots announced, in increasing order; slots are numbered from 1 *)
Definition slots (m : bits) : list Z := sel m (zs 1 210).
Definition slot_ok (k : Z) : Prop := 1 <= k <= 32 \/ 38 <= k <= 61 \/ 120 <= k <= 158.
Definition slot_sat (k : Z) : Z := if k <=? 37 then prn2sat GPS k else if k <=? 61 then prn2sat GLO (k - 37) else prn2sat SBS k.
Definition mask_ok (m : bits) : Prop := length m = 210%nat /\ Forall slot_ok (slots m).
Definition mask_msg (pre iodp : Z) (m rest : bits) : bits := enc [8 # pre; 6 # 1] ++ m ++ enc [2 # iodp] ++ rest.

(* ---------- fast corrections (types 2 to 5) ---------- *)
Definition fast_msg (pre mt iodf iodp : Z) (fcs uds : list Z) (rest : bits) : bits :=
  enc [8 # pre; 6 # mt; 2 # iodf; 2 # iodp] ++ enc (map (fun v => 12 # v) fcs) ++ enc (map (fun v => 4 # v) uds) ++ rest.
Definition fast_ok (n : nat) (fcs uds : list Z) : Prop :=
  length fcs = n /\ length uds = n /\ Forall (S_ 12) fcs /\ Forall (U 4) uds.
(** the clock correction of a fast correction; the largest code means that there is none *)
Definition fast_val (v : Z) : option Z := if v =? 2047 then None else Some (- v).
(** entry of a block of values for mask position [j], the block beginning at position [b] *)
Definition entry {A} (l : list A) (b j : nat) : option A := if (b <=? j)%nat then nth_error l (j - b) else None.

(* ---------- long-term corrections (type 25) ---------- *)
Record lent := LE { e_slot : Z; e_iod : Z; e_dx : Z; e_dy : Z; e_dz : Z; e_db : Z; e_rate : Z * Z * Z * Z }.
Inductive lhalf :=
| L0 (a b : lent) (iodp spare : Z)
| L1 (a : lent) (toa iodp : Z).
Definition ent0 (e : lent) : list field := [6 # e_slot e; 8 # e_iod e; 9 # e_dx e; 9 # e_dy e; 9 # e_dz e; 10 # e_db e].
Definition ent1 (e : lent) : list field :=
  let '(rx, ry, rz, rb) := e_rate e in
  [6 # e_slot e; 8 # e_iod e; 11 # e_dx e; 11 # e_dy e; 11 # e_dz e; 11 # e_db e; 8 # rx; 8 # ry; 8 # rz; 8 # rb].
Definition half_fields (h : lhalf) : list field :=
  match h with
  | L0 a b iodp sp => [1 # 0] ++ ent0 a ++ ent0 b ++ [2 # iodp; 1 # sp]
  | L1 a toa iodp => [1 # 1] ++ ent1 a ++ [13 # toa; 2 # iodp]
  end.
Definition ent_ok (n nb : Z) (e : lent) : Prop :=
  U 6 (e_slot e) /\ U 8 (e_iod e) /\ S_ n (e_dx e) /\ S_ n (e_dy e) /\ S_ n (e_dz e) /\ S_ nb (e_db e).
Definition half_ok (h : lhalf) : Prop :=
  match h with
  | L0 a b iodp _ => ent_ok 9 10 a /\ ent_ok 9 10 b /\ e_rate a = (0, 0, 0, 0) /\ e_rate b = (0, 0, 0, 0) /\ U 2 iodp
  | L1 a _ iodp => ent_ok 11 11 a /\ (let '(rx, ry, rz, rb) := e_rate a in S_ 8 rx /\ S_ 8 ry /\ S_ 8 rz /\ S_ 8 rb) /\ U 2 iodp
  end.
Definition half_iodp (h : lhalf) : Z := match h with L0 _ _ p _ => p | L1 _ _ p => p end.
Definition half_ents (h : lhalf) : list lent := match h with L0 a b _ _ => [a; b] | L1 a _ _ => [a] end.
Definition long_msg (pre : Z) (h1 h2 : lhalf) (rest : bits) : bits := enc ([8 # pre; 6 # 25] ++ half_fields h1 ++ half_fields h2) ++ rest.
(** what is known of a satellite: issue, position (reversed in sign), clock, velocity (reversed), drift *)
Definition long_val := (Z * orb3 * option Z * orb3 * option Z)%type.
Definition code (n v : Z) : option Z := if v =? 2 ^ (n - 1) - 1 then None else Some v.
Definition neg (o : option Z) : option Z := match o with Some v => Some (- v) | None => None end.
Definition ent_val (e : lent) : long_val :=
  let '(rx, ry, rz, rb) := e_rate e in
  (e_iod e, (neg (code 11 (e_dx e)), neg (code 11 (e_dy e)), neg (code 11 (e_dz e))), code 11 (e_db e),
   (neg (code 8 rx), neg (code 8 ry), neg (code 8 rz)), code 8 rb).
Definition long (s : sst) (a : Z) : option long_val :=
  match zget a (ss_iode s), zget a (ss_dorb s), zget a (ss_dclk s), zget a (ss_dvel s), zget a (ss_ddft s) with
  | Some i, Some o, Some c, Some v, Some d => Some (i, o, c, v, d)
  | _, _, _, _, _ => None
  end.
(** the last entry for satellite [a], [at_ k] being the satellite at mask position [k]; position 0 is unused *)
Fixpoint last_ent (at_ : Z -> option Z) (a : Z) (l : list lent) : option lent :=
  match l with
  | [] => None
  | e :: r => match last_ent at_ a r with
              | Some x => Some x
              | None => if 0 <? e_slot e then match at_ (e_slot e) with Some b => if b =? a then Some e else None | None => None end else None
              end
  end.
(** mask position [k], counted from 1 *)
Definition mask_pos (s : sst) (k : Z) : option Z := if 1 <=? k then nth_error (ss_sat s) (Z.to_nat (k - 1)) else None.

(* ---------- mixed corrections (type 24) ---------- *)
Definition mixed_msg (pre iodp blk iodf spare : Z) (fcs uds : list Z) (h : lhalf) (rest : bits) : bits :=
  enc [8 # pre; 6 # 24] ++ enc (map (fun v => 12 # v) fcs) ++ enc (map (fun v => 4 # v) uds)
  ++ enc [2 # iodp; 2 # blk; 2 # iodf; 4 # spare] ++ enc (half_fields h) ++ rest.

(* ---------- ionospheric grid (types 18 and 26) ---------- *)
Definition igp_msg (pre nb band iodi : Z) (m rest : bits) : bits :=
  enc [8 # pre; 6 # 18; 4 # nb; 4 # band; 2 # iodi] ++ m ++ rest.
Definition delay_msg (pre band bid : Z) (l : list (Z * Z)) (iodi : Z) (rest : bits) : bits :=
  enc [8 # pre; 6 # 26; 4 # band; 4 # bid] ++ enc (flat_map (fun vg => [9 # fst vg; 4 # snd vg]) l) ++ enc [2 # iodi] ++ rest.
Definition delay_ok (l : list (Z * Z)) : Prop := length l = 15%nat /\ Forall (fun vg => U 9 (fst vg) /\ U 4 (snd vg)) l.
(** delay (units of 0.125 m, [None] = do not use) and error indicator at grid point [p] of a band *)
Fixpoint at_point {A} (idx : list Z) (l : list A) (p : Z) : option A :=
  match idx, l with
  | k :: r, a :: l => if k =? p then Some a else at_point r l p
  | _, _ => None
  end.
Definition grid (s : sst) (band p : Z) : option (option Z * Z) :=
  match zget band (ss_igp s), zget band (ss_vtec s), zget band (ss_givei s) with
  | Some idx, Some v, Some g => at_point idx (combine v g) p
  | _, _, _ => None
  end.
Definition delay_val (v : Z) : option Z := if v =? 511 then None else Some v.
