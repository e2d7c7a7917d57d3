(** RTCM multiple signal messages: decoder.  /repo/src/cssrlib/rtcm.py:2264-2466.

    Distances are integers in units of c * 1 ms * 2^-31; carrier phases in cycles times 2^31 * 10^3 (distance in the
    unit above times the frequency in Hz); signal strengths in 1/16 dB; times in milliseconds.  [None] inside these is
    NaN.  The constants rCST.P2_10, P2_24, P2_29, P2_31 are taken as the exact powers of two.
    A result [None] is an exception.  [refid], [mi], [iods], [nsat], [nsig] and the rates (read, never stored in the
    observation: obs.D stays zero) are not kept. *)
From Verif Require Export TimeModel SigModel BitModel CssrState RtcmFrame SatModel Base.
Open Scope Z_scope.
Notation length := List.length.

(** rtcm.py:2264-2278 decode_msm_time; [t]: 30-bit field; ticks of 1 ms *)
Definition decode_msm_time (sys : gnss) (week t : Z) : gtime :=
  match sys with
  | GLO => let dow := Z.land (Z.shiftr t 27) 0x1f in
           let tow := Z.land t 0x7ffffff in
           utc2gpst 1000 (timeadd 1000 (gpst2time 1000 week (tow + dow * 86400000)) (- 10800000))
  | BDS => bdt2gpst 1000 (gpst2time 1000 week t)
  | _ => gpst2time 1000 week t
  end.

(** one column: [n] fields of width [w] *)
Fixpoint col {A} (rd : nat -> option A) (w n i : nat) : option (list A * nat) :=
  match n with
  | O => Some ([], i)
  | S n => do a <- rd i; do (l, j) <- col rd w n (i + w); Some (a :: l, j)
  end.
(** rtcm.py:2347-2350: fractions of the rough ranges *)
Fixpoint fracs (msg : bits) (r : list Z) (i : nat) : option (list Z * nat) :=
  match r with
  | [] => Some ([], i)
  | x :: r => do x <- (if x =? 0 then Some x else do v <- getu msg i 10; Some (x + v * 2 ^ 21));
              do (l, j) <- fracs msg r (i + 10); Some (x :: l, j)
  end.
Definition scale (k : Z) (y : option Z) : option Z := option_map (Z.mul k) y.

(** rtcm.py:2313-2322: signals of every satellite *)
Fixpoint cell_masks (msg : bits) (sig : list Z) (nsat i : nat) : option (list (list Z) * nat) :=
  match nsat with
  | O => Some ([], i)
  | S n => let nsig := length sig in
           do _ <- guard (0 <? Z.of_nat nsig);
           do m <- getu msg i nsig;
           let l := map (fun k => nth (Z.to_nat k) sig 0) (fst (decode_mask m nsig 0)) in
           do (r, j) <- cell_masks msg sig n (i + nsig); Some (l :: r, j)
  end.

(** rtcm.py:2330-2355: rough ranges and extended information *)
Definition sat_part (msg : bits) (msm : Z) (nsat i : nat) : option (list Z * list Z * nat) :=
  let ext := (msm =? 5) || (msm =? 7) in
  if (1 <=? msm) && (msm <=? 3) then
    do (v, i) <- col (fun i => getu msg i 10) 10 nsat i;
    Some (map (fun v => if v =? 2 ^ 10 - 1 then 0 else v * 2 ^ 31) v, repeat 0 nsat, i)
  else
    do (v, i) <- col (fun i => getu msg i 8) 8 nsat i;
    let r := map (fun v => if v =? 2 ^ 8 - 1 then 0 else v * 2 ^ 31) v in
    do (ex, i) <- (if ext then col (fun i => getu msg i 4) 4 nsat i else Some (repeat 0 nsat, i));
    do (r, i) <- fracs msg r i;
    do i <- (if ext then do (_, i) <- col (fun i => gets msg i 14) 14 nsat i; Some i else Some i);
    Some (r, ex, i).

(** rtcm.py:2357-2394: fine pseudoranges, phases, lock times, half-cycle flags, strengths *)
Record cols := COLS { k_pr : list (option Z); k_cp : list (option Z); k_lock : list Z; k_half : list Z; k_cnr : list Z }.
Definition sig_part (msg : bits) (msm : Z) (n i : nat) : option (cols * nat) :=
  do (pr, i) <- (if msm =? 2 then Some (repeat None n, i)
                 else let sz := if msm <? 6 then 15%nat else 20%nat in
                      do (v, i) <- col (fun i => gets msg i sz) sz n i;
                      Some (map (fun u => scale (if msm <? 6 then 2 ^ 7 else 2 ^ 2) (sval u sz)) v, i));
  do (cp, lock, half, i) <-
     (if 1 <? msm then
        let sz := if msm <? 6 then 22%nat else 24%nat in
        do (v, i) <- col (fun i => gets msg i sz) sz n i;
        let cp := map (fun u => scale (if msm <? 6 then 2 ^ 2 else 1) (sval u sz)) v in
        let sz := if msm <? 6 then 4%nat else 10%nat in
        do (lock, i) <- col (fun i => getu msg i sz) sz n i;
        do (half, i) <- col (fun i => getu msg i 1) 1 n i;
        Some (cp, lock, half, i)
      else Some (repeat None n, repeat 0 n, repeat 0 n, i));
  do (cnr, i) <- (if 3 <? msm then
                    let sz := if msm <? 6 then 6%nat else 10%nat in
                    do (v, i) <- col (fun i => getu msg i sz) sz n i;
                    Some (map (Z.mul (if msm <? 6 then 16 else 1)) v, i)
                  else Some (repeat 0 n, i));
  do i <- (if (msm =? 5) || (msm =? 7) then do (_, i) <- col (fun i => gets msg i 15) 15 n i; Some i else Some i);
  Some (COLS pr cp lock half cnr, i).

(** one satellite's row: numpy arrays over the message's signals *)
Record row := ROW { w_P : list (option Z); w_L : list (option Z); w_S : list Z; w_ll : list Z; w_hf : list Z }.
Definition row0 (n : nat) : row := ROW (repeat (Some 0) n) (repeat (Some 0) n) (repeat 0 n) (repeat 0 n) (repeat 0 n).
Definition lset {A} (l : list A) (k : nat) (v : A) : list A := firstn k l ++ v :: skipn (S k) l.
(** list.index *)
Fixpoint lindex (x : Z) (l : list Z) : option nat :=
  match l with [] => None | y :: l => if x =? y then Some 0%nat else do k <- lindex x l; Some (S k) end.
Definition oadd (x : option Z) (r : Z) : option Z := option_map (fun x => x + r) x.

(** rtcm.py:2432-2443: [o] is the position of the satellite's next cell *)
Fixpoint fill (sys : gnss) (sig : list Z) (sigs : list rsig) (fcn : Z) (r : Z) (c : cols) (l : list Z) (o : nat) (w : row) : option row :=
  match l with
  | [] => Some w
  | s :: l =>
      do idx <- lindex s sig;
      do q <- nth_error sigs idx;
      do f <- frequency q (match sys with GLO => Some fcn | _ => None end);
      do pr <- nth_error (k_pr c) o; do cp <- nth_error (k_cp c) o; do ll <- nth_error (k_lock c) o;
      do hf <- nth_error (k_half c) o; do cn <- nth_error (k_cnr c) o;
      fill sys sig sigs fcn r c l (S o)
        (ROW (lset (w_P w) idx (oadd pr r)) (lset (w_L w) idx (scale f (oadd cp r))) (lset (w_S w) idx cn)
             (lset (w_ll w) idx ll) (lset (w_hf w) idx hf))
  end.

(** [x == l] for a number and a list *)
Definition num_is_list (x : Z) (l : list Z) : bool := false.

(** rtcm.py:2451-2461: loss-of-lock flags of one satellite; [prev] = self.lock[sat] *)
Fixpoint lli_loop (sig : list Z) (sig_n : list (list Z)) (prev : list Z) (hf : list Z) (j : nat) (ll : list Z) (out : list Z) : option (list Z) :=
  match ll with
  | [] => Some out
  | x :: ll =>
      do s <- nth_error sig j;
      do out <- (if negb (existsb (num_is_list s) sig_n) then Some out
                 else do idx <- lindex s sig;
                      do p <- nth_error prev j;
                      let out := if x <? p then lset out idx (Z.lor (nth idx out 0) 1) else out in
                      do h <- nth_error hf j;
                      Some (if 0 <? h then lset out idx (Z.lor (nth idx out 0) 3) else out));
      lli_loop sig sig_n prev hf (S j) ll out
  end.

(** the observation: time, signal list, and per satellite its number and row *)
Record mobs := MOBS { o_time : gtime; o_sig : list rsig; o_sat : list Z; o_P : list (list (option Z));
                      o_L : list (list (option Z)); o_S : list (list Z); o_lli : list (list Z) }.
Definition obs_add (o : mobs) (sat : Z) (w : row) (lli : list Z) : mobs :=
  MOBS (o_time o) (o_sig o) (o_sat o ++ [sat]) (o_P o ++ [w_P w]) (o_L o ++ [w_L w]) (o_S o ++ [w_S w]) (o_lli o ++ [lli]).

(** rtcm.py:2416-2463: loop over the satellites; [lock] = self.lock *)
Fixpoint rows (sys : gnss) (sig : list Z) (sigs : list rsig) (sig_n : list (list Z)) (c : cols)
    (prn : list Z) (sn : list (list Z)) (r ex : list Z) (o : nat) (lock : dict Z (list Z)) (ob : mobs) : option (dict Z (list Z) * mobs) :=
  match prn, sn, r, ex with
  | p :: prn, l :: sn, rk :: r, e :: ex =>
      let sat := prn2sat sys p in
      let fcn := match sys with GLO => if e <=? 13 then e - 7 else 0 | _ => 0 end in
      do w <- fill sys sig sigs fcn rk c l o (row0 (length sig));
      do lli <- (match zget sat lock with
                 | Some prev => lli_loop sig sig_n prev (w_hf w) 0 (w_ll w) (repeat 0 (length sig))
                 | None => Some (repeat 0 (length sig))
                 end);
      rows sys sig sigs sig_n c prn sn r ex (o + length l) (zset sat (w_ll w) lock) (obs_add ob sat w lli)
  | _, _, _, _ => Some (lock, ob)
  end.

Fixpoint omap {A B} (f : A -> option B) (l : list A) : option (list B) :=
  match l with [] => Some [] | x :: l => do y <- f x; do r <- omap f l; Some (y :: r) end.

(** rtcm.py:2280-2466 decode_msm.  More than 64 cells: the method returns -1 alone, which the caller
    (rtcm.py:4007) cannot unpack: TypeError. *)
Definition decode_msm (mt week : Z) (lock : dict Z (list Z)) (msg : bits) (i : nat) : option (dict Z (list Z) * mobs * nat) :=
  let (sys, msm) := msmtype mt in
  do _ <- getu msg i 12; do tow <- getu msg (i + 12) 30; do _ <- getu msg (i + 42) 1; do _ <- getu msg (i + 43) 3;
  let i := (i + 53)%nat in
  let time := decode_msm_time sys week tow in
  do _ <- getu msg i 8;
  let i := (i + 8)%nat in
  do svmask <- getu msg i 64; do sigmask <- getu msg (i + 64) 32;
  let i := (i + 96)%nat in
  let ofst := match sys with QZS => 193 | SBS => 120 | _ => 1 end in
  let prn := fst (decode_mask svmask 64 ofst) in
  let sig := fst (decode_mask sigmask 32 1) in
  let nsat := length prn in
  do _ <- guard (Z.of_nat nsat * Z.of_nat (length sig) <=? 64);
  do (sig_n, i) <- cell_masks msg sig nsat i;
  let ncell := fold_right (fun l n => (length l + n)%nat) 0%nat sig_n in
  do (r, ex, i) <- sat_part msg msm nsat i;
  do (c, i) <- sig_part msg msm ncell i;
  do sigs <- omap (msm2rsig sys TC) sig;
  do (lock, ob) <- rows sys sig sigs sig_n c prn sig_n r ex 0 lock (MOBS time sigs [] [] [] [] []);
  Some (lock, ob, i).
