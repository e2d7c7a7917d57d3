(** PPP-B2b messages and their meaning, independently of the decoder. *)
From Verif Require Import SatModel CssrState CssrSpec BdsModel.
From Verif Require SbasSpec.
From Verif Require Export Base FieldSpec.
Notation length := List.length.
Open Scope Z_scope.

(** the satellite of a slot number *)
Definition slot_sat (k : Z) : option Z :=
  if (1 <=? k) && (k <=? 63) then Some (prn2sat BDS k)
  else if (64 <=? k) && (k <=? 95) then Some (prn2sat GPS (k - 63))
  else if (101 <=? k) && (k <=? 136) then Some (prn2sat GAL (k - 100))
  else if (138 <=? k) && (k <=? 169) then Some (prn2sat GLO (k - 137))
  else None.
Definition slot_ok (k : Z) : Prop := 1 <= k <= 63 \/ 64 <= k <= 95 \/ 101 <= k <= 136 \/ 138 <= k <= 169.
Definition idle (k : Z) : Prop := k = 0 \/ 174 < k.
Definition sats (l : list Z) : list Z := flat_map (fun k => match slot_sat k with Some a => [a] | None => [] end) l.
Definition b2b_hd (mt tod res iodssr : Z) : list field := [6 # mt; 17 # tod; 4 # res; 2 # iodssr].

(** type 1: 174 mask bits, slot numbers from 1 *)
Definition slots (m : bits) : list Z := sel m (zs 1 174).
Definition mask_ok (m : bits) : Prop := length m = 174%nat /\ Forall slot_ok (slots m).
Definition mask_msg (tod res iodssr iodp : Z) (m rest : bits) : bits := enc (b2b_hd 1 tod res iodssr ++ [4 # iodp]) ++ m ++ rest.

(** type 2: six satellites *)
Record oent := OE { o_slot : Z; o_iodn : Z; o_iodc : Z; o_dx : Z; o_dy : Z; o_dz : Z; o_uc : Z; o_uv : Z }.
Definition ofields (e : oent) : list field :=
  [9 # o_slot e; 10 # o_iodn e; 3 # o_iodc e; 15 # o_dx e; 13 # o_dy e; 13 # o_dz e; 3 # o_uc e; 3 # o_uv e].
Definition oent_ok (e : oent) : Prop :=
  (slot_ok (o_slot e) \/ idle (o_slot e)) /\ U 9 (o_slot e) /\ U 10 (o_iodn e) /\ U 3 (o_iodc e) /\ S_ 15 (o_dx e) /\ S_ 13 (o_dy e) /\ S_ 13 (o_dz e) /\ U 3 (o_uc e) /\ U 3 (o_uv e).
Definition orb_msg (tod res iodssr : Z) (l : list oent) (rest : bits) : bits := enc (b2b_hd 2 tod res iodssr ++ flat_map ofields l) ++ rest.
(** the two most negative codes mean that there is no value *)
Definition code (n v : Z) : option Z := if (v =? - 2 ^ (n - 1)) || (v =? - 2 ^ (n - 1) + 1) then None else Some v.
(** issue of the ephemeris: eight bits for BDS and GPS *)
Definition iode_of (e : oent) : Z := if o_slot e <=? 100 then o_iodn e mod 256 else o_iodn e.
Definition orb_val := (Z * Z * orb3 * (Z * Z))%type.
Definition oval (e : oent) : orb_val :=
  (iode_of e, o_iodc e, (code 15 (o_dx e), code 13 (o_dy e), code 13 (o_dz e)), (o_uc e, o_uv e)).
Definition orbit (s : bst) (a : Z) : option orb_val :=
  match zget a (b_iode s), zget a (b_iodc s), zget a (b_dorb s), zget a (b_ura s) with
  | Some i, Some c, Some o, Some u => Some (i, c, o, u) | _, _, _, _ => None end.
Fixpoint last_orb (a : Z) (l : list oent) : option oent :=
  match l with
  | [] => None
  | e :: r => match last_orb a r with Some x => Some x | None =>
                match slot_sat (o_slot e) with Some b => if b =? a then Some e else None | None => None end end
  end.

(** type 4: 23 clock corrections for consecutive mask positions *)
Definition clk_msg (tod res iodssr iodp st : Z) (l : list (Z * Z)) (rest : bits) : bits :=
  enc (b2b_hd 4 tod res iodssr ++ [4 # iodp; 5 # st] ++ flat_map (fun c => [3 # fst c; 15 # snd c]) l) ++ rest.
Definition clk_ok (l : list (Z * Z)) : Prop := length l = 23%nat /\ Forall (fun c => U 3 (fst c) /\ S_ 15 (snd c)) l.
Definition neg (o : option Z) : option Z := match o with Some v => Some (- v) | None => None end.
Definition both {A B} (x : option A) (y : option B) : option (A * B) := match x, y with Some a, Some b => Some (a, b) | _, _ => None end.
Definition clock (s : bst) (a : Z) : option (Z * option Z) := both (zget a (b_iodc_c s)) (zget a (b_dclk s)).
(** the clock correction of the issue before the present one *)
Definition clock_p (s : bst) (a : Z) : option (Z * option Z) := both (zget a (b_iodc_c_p s)) (zget a (b_dclk_p s)).
Notation entry := SbasSpec.entry.

(** type 3: code biases *)
Record cent := CE { c_slot : Z; c_sigs : list (Z * Z) }.
Definition cfields (e : cent) : list field := [9 # c_slot e; 4 # Z.of_nat (length (c_sigs e))] ++ flat_map (fun p => [4 # fst p; 12 # snd p]) (c_sigs e).
Definition cb_msg (tod res iodssr : Z) (l : list cent) (rest : bits) : bits :=
  enc (b2b_hd 3 tod res iodssr ++ [5 # Z.of_nat (length l)] ++ flat_map cfields l) ++ rest.

Definition cent_ok (e : cent) : Prop :=
  slot_ok (c_slot e) /\ (length (c_sigs e) <= 15)%nat /\ Forall (fun p => U 4 (fst p) /\ S_ 12 (snd p)) (c_sigs e).
Fixpoint last_bias (k : Z) (l : list (Z * Z)) : option (option Z) :=
  match l with
  | [] => None
  | (j, v) :: r => match last_bias k r with Some x => Some x | None => if j =? k then Some (code 12 v) else None end
  end.
Fixpoint last_cb (a : Z) (l : list cent) : option cent :=
  match l with
  | [] => None
  | e :: r => match last_cb a r with Some x => Some x | None =>
                match slot_sat (c_slot e) with Some b => if b =? a then Some e else None | None => None end end
  end.
Definition bias (s : bst) (a k : Z) : option (option Z) := match zget a (b_cbias s) with Some d => zget k d | None => None end.
(** signals with a bias: GPS, GLONASS, Galileo and BDS *)
Definition sig_ok (slot k : Z) : Prop :=
  In k (if slot <=? 63 then [0; 1; 2; 4; 5; 7; 8; 12] else if slot <=? 100 then [0; 1; 4; 5; 7; 8; 11; 12; 13]
        else if slot <=? 137 then [1; 2; 4; 5; 7; 8; 11] else [0; 1; 2]).

(** type 5: 70 accuracy indicators for consecutive mask positions *)
Definition ura_msg (tod res iodssr iodp st : Z) (l : list (Z * Z)) (rest : bits) : bits :=
  enc (b2b_hd 5 tod res iodssr ++ [4 # iodp; 3 # st] ++ flat_map (fun c => [3 # fst c; 3 # snd c]) l) ++ rest.
Definition ura_ok (l : list (Z * Z)) : Prop := length l = 70%nat /\ Forall (fun c => U 3 (fst c) /\ U 3 (snd c)) l.
Definition mask_part (s : bst) := (b_iodssr s, b_iodp s, b_iodp_p s, b_sat_n s).
Definition orb_part (s : bst) := (b_iode s, b_iodc s, b_dorb s).
Definition clk_part (s : bst) := (b_iodc_c s, b_dclk s, b_iodc_c_p s, b_dclk_p s).
(** states which the decoder reaches *)
Definition valid (s : bst) : Prop :=
  Forall (fun a => 0 < a) (b_sat_n s) /\ (forall a, zget a (b_iodc_c s) <> None -> zget a (b_dclk s) <> None)
  /\ b_iodp_p s = b_iodp s.
(** types 6 and 7 *)
Definition comb1_msg (tod res iodssr iodp slot : Z) (clk : list (Z * Z)) (tod2 res2 iodssr2 : Z) (orb : list oent) (rest : bits) : bits :=
  enc ([6 # 6; 5 # Z.of_nat (length clk); 3 # Z.of_nat (length orb)] ++ [17 # tod; 4 # res; 2 # iodssr; 4 # iodp; 9 # slot]
       ++ flat_map (fun c => [3 # fst c; 15 # snd c]) clk ++ [17 # tod2; 4 # res2; 2 # iodssr2] ++ flat_map ofields orb) ++ rest.
Definition comb2_msg (tod res iodssr : Z) (clk : list (Z * Z * Z)) (rest : bits) : bits :=
  enc ([6 # 7; 5 # Z.of_nat (length clk); 3 # 0] ++ [17 # tod; 4 # res; 2 # iodssr]
       ++ flat_map (fun c => [9 # fst (fst c); 3 # snd (fst c); 15 # snd c]) clk) ++ rest.
