(** BDS PPP-B2b corrections: /repo/src/cssrlib/cssr_bds.py.

    - A buffer is its list of bits; [None] = an exception (bitstruct.Error, IndexError, KeyError, TypeError).
    - Scaled values are integer mantissas ([None] inside = NaN); URA is the pair (class, value).
    - Widths dorb_blen, dclk_blen are those of cssrlib.py:332-335.
    - Not modelled: time tags ([tod], [t0]), [cstat], [iodssr_c], [nsat_g], [sys_n], [nsig_n], [sig_n], log output. *)
From Verif Require Export CssrState.
From Verif Require Export Base.
Notation length := List.length.
Open Scope Z_scope.

Record bst := BST {
  b_iodssr : Z; b_iodp : Z; b_iodp_p : Z; b_sat_n : list Z; b_sat_n_p : list Z; b_iodssr_p : Z;
  b_iode : dict Z Z; b_iodc : dict Z Z; b_dorb : dict Z orb3; b_ura : dict Z (Z * Z);
  b_iodc_c : dict Z Z; b_dclk : dict Z (option Z); b_iodc_c_p : dict Z Z; b_dclk_p : dict Z (option Z);
  b_cbias : dict Z (dict Z (option Z)) }.
(** cssr_bds.py:15-24 and cssrlib.py:270-340 *)
Definition bds_new : bst := BST (-1) (-1) (-1) [] [] (-1) [] [] [] [] [] [] [] [] [].

Definition set_b_ssr v s := match s with BST _ b c d e f g h i j k l m n o => BST v b c d e f g h i j k l m n o end.
Definition set_b_orb iode iodc dorb ura s := match s with BST a b c d e f _ _ _ _ k l m n o => BST a b c d e f iode iodc dorb ura k l m n o end.
Definition set_b_ura ura s := match s with BST a b c d e f g h i _ k l m n o => BST a b c d e f g h i ura k l m n o end.
Definition set_b_clk iodc_c dclk iodc_c_p dclk_p s := match s with BST a b c d e f g h i j _ _ _ _ o => BST a b c d e f g h i j iodc_c dclk iodc_c_p dclk_p o end.
Definition set_b_cb cb s := match s with BST a b c d e f g h i j k l m n _ => BST a b c d e f g h i j k l m n cb end.

(** cssr_bds.py:27-70: the signal indices known for a constellation *)
Definition known_sig (sys : gnss) (k : Z) : bool :=
  existsb (Z.eqb k) (match sys with
    | GPS => [0; 1; 4; 5; 7; 8; 11; 12; 13] | GLO => [0; 1; 2] | GAL => [1; 2; 4; 5; 7; 8; 11]
    | BDS => [0; 1; 2; 4; 5; 7; 8; 12] | _ => [] end).
(** cssr_bds.py:81-96 *)
Definition slot2prn (slot : Z) : gnss * Z :=
  if (slot >=? 1) && (slot <=? 63) then (BDS, slot)
  else if slot <=? 100 then (GPS, slot - 63)
  else if slot <=? 137 then (GAL, slot - 100)
  else if slot <=? 174 then (GLO, slot - 137)
  else (NONE, 0).
(** cssr_bds.py:98-111 *)
Definition decode_head (msg : bits) (i : nat) : option Z :=
  do tod <- getu msg i 17; do r <- getu msg (i + 17) 4; getu msg (i + 21) 2.
(** cssr_bds.py:126-179, with add_gnss 113-124 *)
Definition decode_mask1 (msg : bits) (i : nat) (s : bst) : option bst :=
  do iodssr <- decode_head msg i; let i := (i + 23)%nat in
  let s := set_b_ssr iodssr s in
  do iodp <- getu msg i 4; let i := (i + 4)%nat in
  do bds <- getu msg i 63; do gps <- getu msg (i + 63) 37; do gal <- getu msg (i + 100) 37; do glo <- getu msg (i + 137) 37;
  let add sys m n := map (prn2sat sys) (fst (decode_mask m n 1)) in
  let iodp_p := b_iodp_p s in
  if negb (iodp =? iodp_p) then
    Some (BST iodssr iodp iodp (add BDS bds 63%nat ++ add GPS gps 37%nat ++ add GAL gal 37%nat ++ add GLO glo 37%nat) (b_sat_n s) (b_iodssr s)
            [] [] [] [] [] [] [] [] [])
  else Some (match s with BST a _ c d e f g h i j k l m n o => BST a iodp c d e f g h i j k l m n o end).
(** cssr_bds.py:181-216 *)
Definition orb_sat (msg : bits) (i : nat) (s : bst) : option (nat * bst) :=
  do slot <- getu msg i 9; do iodn <- getu msg (i + 9) 10; do iodc <- getu msg (i + 19) 3; let i := (i + 22)%nat in
  do dx <- gets msg i 15; do dy <- gets msg (i + 15) 13; do dz <- gets msg (i + 28) 13; let i := (i + 41)%nat in
  do uc <- getu msg i 3; do uv <- getu msg (i + 3) 3; let i := (i + 6)%nat in
  let '(sys, prn) := slot2prn slot in
  if gnss_eqb sys NONE then Some (i, s) else
  let sat := prn2sat sys prn in
  if negb (existsb (Z.eqb sat) (b_sat_n s)) then Some (i, s) else
  let iodn := if gnss_eqb sys GPS || gnss_eqb sys BDS then Z.land iodn 255 else iodn in
  Some (i, set_b_orb (zset sat iodn (b_iode s)) (zset sat iodc (b_iodc s))
             (zset sat (sval_bds dx 15, sval_bds dy 13, sval_bds dz 13) (b_dorb s)) (zset sat (uc, uv) (b_ura s)) s).
Fixpoint orb_loop (msg : bits) (i n : nat) (s : bst) : option (nat * bst) :=
  match n with O => Some (i, s) | S n => do r <- orb_sat msg i s; let '(i, s) := r in orb_loop msg i n s end.
(** cssr_bds.py:218-233 *)
Definition decode_orb (msg : bits) (i : nat) (s : bst) : option bst :=
  do iodssr <- decode_head msg i;
  if negb (b_iodssr s =? iodssr) then Some s else
  do r <- orb_loop msg (i + 23) 6 s; Some (snd r).
(** cssr_bds.py:235-270 *)
Fixpoint cb_sigs (msg : bits) (i n : nat) (sys : gnss) (d : dict Z (option Z)) : option (nat * dict Z (option Z)) :=
  match n with
  | O => Some (i, d)
  | S n => do sig <- getu msg i 4; do cb <- gets msg (i + 4) 12;
      if known_sig sys sig then cb_sigs msg (i + 16) n sys (zset sig (sval_bds cb 12) d) else None
  end.
Fixpoint cb_loop (msg : bits) (i n : nat) (s : bst) : option bst :=
  match n with
  | O => Some s
  | S n => do slot <- getu msg i 9; do nsig <- getu msg (i + 9) 4; let i := (i + 13)%nat in
      let '(sys, prn) := slot2prn slot in
      let sat := prn2sat sys prn in
      if negb (existsb (Z.eqb sat) (b_sat_n s)) then cb_loop msg i n s else
      do r <- cb_sigs msg i (Z.to_nat nsig) sys []; let '(i, d) := r in
      cb_loop msg i n (set_b_cb (zset sat d (b_cbias s)) s)
  end.
Definition decode_cbias (msg : bits) (i : nat) (s : bst) : option bst :=
  do iodssr <- decode_head msg i;
  if negb (b_iodssr s =? iodssr) then Some s else
  do nsat <- getu msg (i + 23) 5; cb_loop msg (i + 28) (Z.to_nat nsat) s.
(** cssr_bds.py:272-285 *)
Definition clk_sat (msg : bits) (i : nat) (sat : Z) (s : bst) : option (nat * bst) :=
  do iodc <- getu msg i 3; do dclk <- gets msg (i + 3) 15; let i := (i + 18)%nat in
  do p <- match zget sat (b_iodc_c s) with
          | Some c => if negb (iodc =? c) then do d <- zget sat (b_dclk s); Some (zset sat c (b_iodc_c_p s), zset sat d (b_dclk_p s))
                      else Some (b_iodc_c_p s, b_dclk_p s)
          | None => Some (b_iodc_c_p s, b_dclk_p s) end;
  Some (i, set_b_clk (zset sat iodc (b_iodc_c s)) (zset sat (option_map Z.opp (sval_bds dclk 15)) (b_dclk s)) (fst p) (snd p) s).
(** cssr_bds.py:287-311 *)
Fixpoint clk_loop (msg : bits) (i n k : nat) (st : Z) (s : bst) : option bst :=
  match n with
  | O => Some s
  | S n => match nth_error (b_sat_n s) (Z.to_nat (st * 23 + Z.of_nat k)) with
           | None => clk_loop msg i n (S k) st s
           | Some sat => do r <- clk_sat msg i sat s; let '(i, s) := r in clk_loop msg i n (S k) st s
           end
  end.
Definition decode_clk (msg : bits) (i : nat) (s : bst) : option bst :=
  do iodssr <- decode_head msg i;
  if negb (b_iodssr s =? iodssr) then Some s else
  do iodp <- getu msg (i + 23) 4; do st1 <- getu msg (i + 27) 5;
  if negb (iodp =? b_iodp s) then Some s else
  clk_loop msg (i + 32) 23 0 st1 s.
(** cssr_bds.py:313-332 *)
Fixpoint ura_loop (msg : bits) (i n k : nat) (st : Z) (s : bst) : option bst :=
  match n with
  | O => Some s
  | S n => do c <- getu msg i 3; do v <- getu msg (i + 3) 3;
      ura_loop msg (i + 6) n (S k) st
        (match nth_error (b_sat_n s) (Z.to_nat (st * 70 + Z.of_nat k)) with
         | None => s | Some sat => set_b_ura (zset sat (c, v) (b_ura s)) s end)
  end.
Definition decode_ura_n (n : nat) (msg : bits) (i : nat) (s : bst) : option bst :=
  do iodssr <- decode_head msg i;
  if negb (b_iodssr s =? iodssr) then Some s else
  do iodp <- getu msg (i + 23) 4; do st2 <- getu msg (i + 27) 3;
  ura_loop msg (i + 30) n 0 st2 s.
Definition decode_ura := decode_ura_n 70.
(** cssr_bds.py:334-354: the counts are not skipped before the header *)
Fixpoint comb_clk (msg : bits) (i n k : nat) (slot : Z) (s : bst) : option (nat * bst) :=
  match n with
  | O => Some (i, s)
  | S n => do sat <- nth_error (b_sat_n s) (Z.to_nat (slot + Z.of_nat k));
      do r <- clk_sat msg i sat s; let '(i, s) := r in comb_clk msg i n (S k) slot s
  end.
Definition decode_comb1 (msg : bits) (i : nat) (s : bst) : option bst :=
  do numc <- getu msg i 5; do numo <- getu msg (i + 5) 3;
  do r <- (if numc >? 0 then
             do h <- decode_head msg i; do iodp <- getu msg (i + 23) 4; do slot <- getu msg (i + 27) 9;
             comb_clk msg (i + 36) (Z.to_nat numc) 0 slot s
           else Some (i, s));
  let '(i, s) := r in
  if numo >? 0 then do h <- decode_head msg i; do r <- orb_loop msg (i + 23) (Z.to_nat numo) s; Some (snd r) else Some s.
(** cssr_bds.py:356-377: the slot is a tuple, so that its comparison raises TypeError *)
Definition decode_comb2 (msg : bits) (i : nat) (s : bst) : option bst :=
  do numc <- getu msg i 5; do numo <- getu msg (i + 5) 3;
  if numc >? 0 then None else
  if numo >? 0 then do h <- decode_head msg i; do r <- orb_loop msg (i + 23) (Z.to_nat numo) s; Some (snd r) else Some s.
(** cssr_bds.py:379-407 *)
Definition decode_b2b (msg : bits) (s : bst) : option bst :=
  do mt <- getu msg 0 6;
  if mt =? 1 then decode_mask1 msg 6 s else if mt =? 2 then decode_orb msg 6 s else if mt =? 3 then decode_cbias msg 6 s
  else if mt =? 4 then decode_clk msg 6 s else if mt =? 5 then decode_ura msg 6 s else if mt =? 6 then decode_comb1 msg 6 s
  else if mt =? 7 then decode_comb2 msg 6 s else Some s.
