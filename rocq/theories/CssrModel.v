(** Compact-SSR decoder: /repo/src/cssrlib/cssrlib.py:476-1206 and the HAS variants of its methods
    (cssr_has.py:17-75).

    A decoding method is [cst -> cst * option A]: the attributes after the call and the result;
    [None] = an exception was raised (the state keeps what had been assigned before).  The
    position [i] is a [nat]; a method that returns -1 yields [Some None]. *)
From Verif Require Export CssrState.
Open Scope Z_scope.

(* ---------- state and exception monad ---------- *)
Definition M (A : Type) := cst -> cst * option A.
Definition ret {A} (a : A) : M A := fun s => (s, Some a).
Definition raise {A} : M A := fun s => (s, None).
Definition mbind {A B} (m : M A) (f : A -> M B) : M B :=
  fun s => match m s with (s', Some a) => f a s' | (s', None) => (s', None) end.
Notation "x <~ m ;; k" := (mbind m (fun x => k))
  (at level 101, m at level 100, right associativity).
Notation "' x <~ m ;; k" := (mbind m (fun x => k))
  (at level 101, x pattern, m at level 100, right associativity).
Notation "m ;;; k" := (mbind m (fun _ => k)) (at level 101, right associativity).
Definition lift {A} (o : option A) : M A := fun s => (s, o).
Definition ask {A} (f : cst -> A) : M A := fun s => (s, Some (f s)).
Definition modify (f : cst -> cst) : M unit := fun s => (f s, Some tt).
Definition modlc (inet : Z) (f : lcr -> lcr) : M unit :=
  modify (updlc inet f).
(** for k in range(k, k+n): a = f(k, a) *)
Fixpoint forM {A} (n k : nat) (f : nat -> A -> M A) (a : A) : M A :=
  match n with
  | O => ret a
  | S m => a' <~ f k a ;; forM m (S k) f a'
  end.
(** for x in l: a = f(x, a) *)
Fixpoint eachM {X A} (l : list X) (f : X -> A -> M A) (a : A) : M A :=
  match l with
  | [] => ret a
  | x :: r => a' <~ f x a ;; eachM r f a'
  end.
Definition whenM (b : bool) (m : M unit) : M unit := if b then m else ret tt.

(* ---------- constants (cssrlib.py:51-85) ---------- *)
Definition tMASK := 0. Definition tORBIT := 1. Definition tCLOCK := 2. Definition tCBIAS := 3.
Definition tPBIAS := 4. Definition tSTEC := 5. Definition tTROP := 6. Definition tURA := 7.
Definition tHCLOCK := 9.

(** What distinguishes the subclasses: cssrlib.py:329-339 and cssr_has.py:17-36.
    [c_has] = (cssrmode == GAL_HAS_SIS). *)
Record cfg := CFG { c_has : bool; b_o0 : nat; b_o1 : nat; b_o2 : nat; b_clk : nat; b_cb : nat; b_pb : nat;
                    c_sval : Z -> nat -> option Z }.
Definition clas_cfg := CFG false 15 13 13 15 11 15 sval.
Definition has_cfg := CFG true 13 12 12 13 11 11 sval_has.

(** cssrlib.py:518-527 gnss2sys; -1 is [NONE] *)
Definition gnss2sys (g : Z) : gnss :=
  match g with
  | 0 => GPS | 1 => GLO | 2 => GAL | 3 => BDS | 4 => QZS | 5 => SBS | 7 => BDS | _ => NONE
  end.

(** cssrlib.py:496-506 set_t0 *)
Definition t0_init : dict Z gtime :=
  [(tCLOCK, gtime0); (tORBIT, gtime0); (tCBIAS, gtime0); (tPBIAS, gtime0); (tHCLOCK, gtime0)].
Definition lc_t0 (sat ctype : Z) (t : gtime) (l : lcr) : lcr :=
  set_l_t0 (zset sat (zset ctype t (match zget sat (l_t0 l) with Some d => d | None => t0_init end)) (l_t0 l)) l.
Definition set_t0 (inet sat ctype : Z) : M unit :=
  t <~ ask s_time ;; modlc inet (lc_t0 sat ctype t).

Definition or_cstat (inet bit : Z) : M unit :=
  modlc inet (fun l => set_l_cstat (Z.lor (l_cstat l) (Z.shiftl 1 bit)) l).
Definition set_udi (c v : Z) : M unit :=
  modify (fun s => set_s_udi (upd (Z.to_nat c) (fun _ => v) (s_udi s)) s).
Definition set_iodc (c v : Z) : M unit :=
  modify (fun s => set_s_iodssr_c (upd (Z.to_nat c) (fun _ => v) (s_iodssr_c s)) s).

(** cssrlib.py:529-536 decode_local_sat *)
Definition decode_local_sat (netmask : Z) : M (list Z) :=
  n <~ ask s_nsat_n ;;
  forM n 0 (fun k acc =>
    if isset netmask n k then
      sats <~ ask s_sat_n ;; sat <~ lift (nth_error sats k) ;; ret (acc ++ [sat])
    else ret acc) [].

Record head := HD { h_udi : Z; h_mi : Z; h_iod : Z }.

Section D.
Variable c : cfg.
Variable msg : bits.

Definition ru (i n : nat) : M Z := lift (getu msg i n).
Definition rs (i n : nat) : M Z := lift (gets msg i n).

(** cssrlib.py:548-565 decode_head; cssr_has.py:60-75 *)
Definition decode_head (mask : bool) (i : nat) : M (head * nat) :=
  if c_has c then
    '(udi, i) <~ (if mask then ret (0, i) else u <~ ru i 4 ;; ret (u, (i + 4)%nat)) ;;
    modify (fun s =>
      if s_tow0 s >=? 0 then
        let s := set_s_tow (s_tow0 s + s_toh s) s in
        if s_week s >=? 0 then set_s_time (gpst2time 1 (s_week s) (s_tow s)) s else s
      else s) ;;;
    iod <~ ask s_iodssr ;;
    ret (HD udi 0 iod, i)
  else
    i <~ (if mask then
            tow <~ ru i 20 ;;
            modify (fun s => set_s_tow0 (tow / 3600 * 3600) (set_s_tow tow s)) ;;;
            ret (i + 20)%nat
          else
            dtow <~ ru i 12 ;;
            modify (fun s => if s_tow0 s >=? 0 then set_s_tow (s_tow0 s + dtow) s else s) ;;;
            ret (i + 12)%nat) ;;
    modify (fun s => if s_week s >=? 0 then set_s_time (gpst2time 1 (s_week s) (s_tow s)) s else s) ;;;
    udi <~ ru i 4 ;; mi <~ ru (i + 4) 1 ;; iod <~ ru (i + 5) 4 ;;
    ret (HD udi mi iod, (i + 9)%nat).

(** cssrlib.py:602-633: one constellation block of the mask message *)
Definition adj_prn (g prn : Z) : Z :=
  if g =? 4 then prn + 192 else if g =? 7 then prn + 18 else prn.

(** [[self.ssig2rsig(sys, uTYP.L, s) for s in sig]]; an unknown index raises KeyError *)
Fixpoint sigs_of (sys : gnss) (l : list Z) : option (list rsig) :=
  match l with
  | [] => Some []
  | x :: r => do a <- cssr_ssig2rsig sys TL x; do b <- sigs_of sys r; Some (a :: b)
  end.
(** bs.unpack_from(('u'+str(nsig))*nsat, msg, i); 'u0' is not a valid format *)
Fixpoint unpack_n (n w i : nat) : option (list Z) :=
  match n with
  | O => Some []
  | S m => do _ <- guard (0 <? w)%nat; do v <- getu msg i w; do r <- unpack_n m w (i + w); Some (v :: r)
  end.
(** [[sig_r[i] for i in sig_s]] *)
Fixpoint picks {A} (l : list A) (idx : list Z) : option (list A) :=
  match idx with
  | [] => Some []
  | k :: r => do a <- nth_error l (Z.to_nat k); do b <- picks l r; Some (a :: b)
  end.

Definition mask_sat (g : Z) (sys : gnss) (sig_r : list rsig) (nsig : nat) (vc : option (list Z))
    (prns : list Z) (k : nat) : M unit :=
  prn <~ lift (nth_error prns k) ;;
  let sat := prn2sat sys (adj_prn g prn) in
  modify (fun s => set_s_gnss_n (s_gnss_n s ++ [g])
                  (set_s_sat_n (s_sat_n s ++ [sat]) (set_s_sys_n (s_sys_n s ++ [sys]) s))) ;;;
  match vc with
  | Some vc =>
    v <~ lift (nth_error vc k) ;;
    let '(sig_s, nsig_s) := decode_mask v nsig 0 in
    sig_n <~ lift (picks sig_r sig_s) ;;
    modify (fun s => set_s_sig_n (zset sat sig_n (s_sig_n s))
                    (set_s_nsig_total (s_nsig_total s + nsig_s)
                    (set_s_nsig_n (s_nsig_n s ++ [Z.to_nat nsig_s]) s)))
  | None =>
    modify (fun s => set_s_sig_n (zset sat sig_r (s_sig_n s))
                    (set_s_nsig_total (s_nsig_total s + Z.of_nat nsig)
                    (set_s_nsig_n (s_nsig_n s ++ [nsig]) s)))
  end.

Definition mask_blk (i : nat) : M nat :=
  g <~ ru i 4 ;; svmask <~ ru (i + 4) 40 ;; sigmask <~ ru (i + 44) 16 ;; cma <~ ru (i + 60) 1 ;;
  let sys := gnss2sys g in
  modify (fun s => set_s_gnss_idx (s_gnss_idx s ++ [sys]) s) ;;;
  let i := (i + 61)%nat in
  let '(prns, nsat) := decode_mask svmask 40 1 in
  let '(sig, nsig) := decode_mask sigmask 16 0 in
  modify (fun s => set_s_nsat_g (upd (Z.to_nat g) (fun _ => nsat) (s_nsat_g s))
                  (set_s_nsat_n (s_nsat_n s + Z.to_nat nsat)%nat s)) ;;;
  '(vc, i) <~ (if cma =? 1 then
                 vc <~ lift (unpack_n (Z.to_nat nsat) (Z.to_nat nsig) i) ;;
                 ret (Some vc, (i + Z.to_nat nsig * Z.to_nat nsat)%nat)
               else ret (None, i)) ;;
  modify (fun s => set_s_nsig_max (Z.max (s_nsig_max s) nsig) s) ;;;
  sig_r <~ lift (sigs_of sys sig) ;;
  forM (Z.to_nat nsat) 0 (fun k (_ : unit) => mask_sat g sys sig_r (Z.to_nat nsig) vc prns k) tt ;;;
  if c_has c then
    nm <~ ru i 3 ;;
    modify (fun s => set_s_nm_idx (upd (Z.to_nat g) (fun _ => nm) (s_nm_idx s)) s) ;;;
    ret (i + 3)%nat
  else ret i.

(** cssrlib.py:567-639 decode_cssr_mask *)
Definition decode_cssr_mask (i : nat) : M (option nat) :=
  '(h, i) <~ decode_head true i ;;
  ngnss <~ ru i 4 ;;
  modify (fun s => set_s_flg_net false (set_s_ngnss (Z.to_nat ngnss) s)) ;;;
  let i := (i + 4)%nat in
  modify (fun s =>
    let s := if s_iodssr s =? h_iod h then s
             else set_s_sig_n_p (s_sig_n s) (set_s_iodssr_p (s_iodssr s) (set_s_sat_n_p (s_sat_n s) s)) in
    set_s_iodssr (h_iod h) (set_s_nsat_n 0 (set_s_nsig_n [] (set_s_sys_n [] (set_s_gnss_n [] (set_s_sat_n []
    (set_s_nsig_total 0 (set_s_sig_n [] (set_s_nsig_max 0 (set_s_nm_idx (repeat 0 16)
    (set_s_dcm [] (set_s_gnss_idx [] (set_s_nsat_g (repeat 0 16) s))))))))))))) ;;;
  i <~ forM (Z.to_nat ngnss) 0 (fun _ i => mask_blk i) i ;;
  let i := if c_has c then (i + 6)%nat else i in
  or_cstat 0 tMASK ;;;
  set_t0 0 0 tMASK ;;;
  ret (Some i).

(** cssrlib.py:641-660 decode_orb_sat *)
Definition neg_if (b : bool) (v : option Z) : option Z := if b then option_map Z.opp v else v.
Definition decode_orb_sat (i : nat) (sat : Z) (sys : gnss) (inet : Z) : M nat :=
  let n := if gnss_eqb sys GAL then 10%nat else 8%nat in
  iode <~ ru i n ;;
  dx <~ rs (i + n) (b_o0 c) ;; dy <~ rs (i + n + b_o0 c) (b_o1 c) ;;
  dz <~ rs (i + n + b_o0 c + b_o1 c) (b_o2 c) ;;
  let f v b := neg_if (c_has c) (c_sval c v b) in
  modlc inet (fun l => set_l_dorb (ozset sat (f dx (b_o0 c), f dy (b_o1 c), f dz (b_o2 c)) (l_dorb l))
                      (set_l_iode (ozset sat iode (l_iode l)) l)) ;;;
  ret (i + n + b_o0 c + b_o1 c + b_o2 c)%nat.

(** cssrlib.py:662-674 decode_clk_sat; [dcm[sys]] missing raises KeyError *)
Definition decode_clk_sat (i : nat) (sat inet : Z) : M nat :=
  d <~ rs i (b_clk c) ;;
  let v := c_sval c d (b_clk c) in
  modlc inet (fun l => set_l_dclk (ozset sat v (l_dclk l)) l) ;;;
  (if c_has c then
     dcm <~ ask s_dcm ;;
     m <~ lift (dget gnss_eqb (fst (sat2prn sat)) dcm) ;;
     modlc inet (fun l => set_l_dclk (ozset sat (option_map (Z.mul m) v) (l_dclk l)) l)
   else ret tt) ;;;
  ret (i + b_clk c)%nat.

(** cssrlib.py:676-691 decode_cbias_sat, decode_pbias_sat: [lc.cbias[sat][rsig] = ...] *)
Definition put2 {V} (sat : Z) (r : rsig) (v : V) (d : dict Z (dict rsig V)) : dict Z (dict rsig V) :=
  zset sat (rset r v (match zget sat d with Some e => e | None => [] end)) d.
Definition decode_cbias_sat (i : nat) (sat : Z) (r : rsig) (inet : Z) : M nat :=
  cb <~ rs i (b_cb c) ;;
  modlc inet (fun l => set_l_cbias (put2 sat r (c_sval c cb (b_cb c)) (l_cbias l)) l) ;;;
  ret (i + b_cb c)%nat.
Definition decode_pbias_sat (i : nat) (sat : Z) (r : rsig) (inet : Z) : M nat :=
  pb <~ rs i (b_pb c) ;; di <~ ru (i + b_pb c) 2 ;;
  modlc inet (fun l => set_l_di (put2 sat r di (l_di l))
                      (set_l_pbias (put2 sat r (c_sval c pb (b_pb c)) (l_pbias l)) l)) ;;;
  ret (i + b_pb c + 2)%nat.

Definition flg_off : M unit := modify (set_s_flg_net false).

(** self.sat_n[k], self.sys_n[k], self.sig_n[sat] *)
Definition sat_k (k : nat) : M Z := l <~ ask s_sat_n ;; lift (nth_error l k).
Definition sys_k (k : nat) : M gnss := l <~ ask s_sys_n ;; lift (nth_error l k).
Definition sigs_k (sat : Z) : M (list rsig) := d <~ ask s_sig_n ;; lift (zget sat d).

(** cssrlib.py:693-708 decode_cssr_orb (inet = 0 as called by the message loop) *)
Definition decode_cssr_orb (i : nat) : M (option nat) :=
  '(h, i) <~ decode_head false i ;;
  flg_off ;;; set_udi tORBIT (h_udi h) ;;;
  modlc 0 (fun l => set_l_iode (Some []) (set_l_dorb (Some []) l)) ;;;
  n <~ ask s_nsat_n ;;
  i <~ forM n 0 (fun k i =>
         sat <~ sat_k k ;; sys <~ sys_k k ;;
         i <~ decode_orb_sat i sat sys 0 ;; set_t0 0 sat tORBIT ;;; ret i) i ;;
  set_iodc tORBIT (h_iod h) ;;; or_cstat 0 tORBIT ;;; ret (Some i).

(** cssrlib.py:710-738 decode_cssr_clk *)
Definition decode_cssr_clk (i : nat) : M (option nat) :=
  '(h, i) <~ decode_head false i ;;
  flg_off ;;; set_udi tCLOCK (h_udi h) ;;;
  cs <~ ask (fun s => l_cstat (lcat s 0)) ;;
  if negb (Z.testbit cs tMASK) then ret None else
  i <~ (if c_has c then
          modify (set_s_dcm []) ;;;
          n <~ ask s_ngnss ;;
          forM n 0 (fun k i =>
            g <~ ask s_gnss_idx ;; sys <~ lift (nth_error g k) ;; v <~ ru i 2 ;;
            modify (fun s => set_s_dcm (dset gnss_eqb sys (v + 1) (s_dcm s)) s) ;;;
            ret (i + 2)%nat) i
        else ret i) ;;
  modlc 0 (set_l_dclk (Some [])) ;;;
  n <~ ask s_nsat_n ;;
  i <~ forM n 0 (fun k i =>
         sat <~ sat_k k ;;
         i <~ decode_clk_sat i sat 0 ;; set_t0 0 sat tCLOCK ;;; ret i) i ;;
  (if c_has c then modify (fun s => set_s_sat_n_p (s_sat_n s) s) else ret tt) ;;;
  set_iodc tCLOCK (h_iod h) ;;; or_cstat 0 tCLOCK ;;; ret (Some i).

(** cssrlib.py:740-758 decode_cssr_cbias *)
Definition decode_cssr_cbias (i : nat) : M (option nat) :=
  '(h, i) <~ decode_head false i ;;
  flg_off ;;; set_udi tCBIAS (h_udi h) ;;;
  modlc 0 (set_l_cbias []) ;;;
  n <~ ask s_nsat_n ;;
  i <~ forM n 0 (fun k i =>
         sat <~ sat_k k ;;
         modlc 0 (fun l => set_l_cbias (zset sat [] (l_cbias l)) l) ;;;
         sg <~ sigs_k sat ;;
         eachM sg (fun r i =>
           i <~ decode_cbias_sat i sat (toTyp r TC) 0 ;; set_t0 0 sat tCBIAS ;;; ret i) i) i ;;
  set_iodc tCBIAS (h_iod h) ;;; or_cstat 0 tCBIAS ;;; ret (Some i).

(** cssrlib.py:760-780 decode_cssr_pbias *)
Definition decode_cssr_pbias (i : nat) : M (option nat) :=
  '(h, i) <~ decode_head false i ;;
  flg_off ;;; set_udi tPBIAS (h_udi h) ;;;
  modlc 0 (fun l => set_l_di [] (set_l_pbias [] l)) ;;;
  n <~ ask s_nsat_n ;;
  i <~ forM n 0 (fun k i =>
         sat <~ sat_k k ;;
         modlc 0 (fun l => set_l_di (zset sat [] (l_di l)) (set_l_pbias (zset sat [] (l_pbias l)) l)) ;;;
         sg <~ sigs_k sat ;;
         eachM sg (fun r i =>
           i <~ decode_pbias_sat i sat (toTyp r TL) 0 ;; set_t0 0 sat tPBIAS ;;; ret i) i) i ;;
  set_iodc tPBIAS (h_iod h) ;;; or_cstat 0 tPBIAS ;;; ret (Some i).

(** cssrlib.py:782-838 decode_cssr_bias; [v] is only bound when the network flag is set, so the
    loop raises UnboundLocalError otherwise *)
Definition decode_cssr_bias (i : nat) : M (option nat) :=
  nsat <~ ask s_nsat_n ;;
  '(h, i) <~ decode_head false i ;;
  cb <~ ru i 1 ;; pb <~ ru (i + 1) 1 ;; net <~ ru (i + 2) 1 ;;
  let cb := cb =? 1 in let pb := pb =? 1 in let net := net =? 1 in
  modify (set_s_flg_net net) ;;;
  let i := (i + 3)%nat in
  '(inet, v, i) <~ (if net then
      inet <~ ru i 5 ;; _ <~ lift (guard (0 <? nsat)%nat) ;; svm <~ ru (i + 5) nsat ;;
      modify (set_s_inet inet) ;;;
      sats <~ decode_local_sat svm ;;
      modlc inet (fun l => set_l_nsat_n (Z.of_nat (length sats)) (set_l_sat_n sats l)) ;;;
      ret (inet, Some svm, (i + (5 + nsat))%nat)
    else ret (0, None, i)) ;;
  whenM cb (modlc inet (set_l_cbias []) ;;; set_udi tCBIAS (h_udi h)) ;;;
  whenM pb (modlc inet (fun l => set_l_di [] (set_l_pbias [] l)) ;;; set_udi tPBIAS (h_udi h)) ;;;
  i <~ forM nsat 0 (fun k i =>
         svm <~ lift v ;;
         if isset svm nsat k then
           sat <~ sat_k k ;;
           whenM cb (modlc inet (fun l => set_l_cbias (zset sat [] (l_cbias l)) l)) ;;;
           whenM pb (modlc inet (fun l => set_l_di (zset sat [] (l_di l))
                                         (set_l_pbias (zset sat [] (l_pbias l)) l))) ;;;
           ns <~ ask s_nsig_n ;; nsig <~ lift (nth_error ns k) ;;
           forM nsig 0 (fun j i =>
             i <~ (if cb then
                     sg <~ sigs_k sat ;; r <~ lift (nth_error sg j) ;;
                     i <~ decode_cbias_sat i sat (toTyp r TC) inet ;; set_t0 inet sat tCBIAS ;;; ret i
                   else ret i) ;;
             if pb then
               sg <~ sigs_k sat ;; r <~ lift (nth_error sg j) ;;
               i <~ decode_pbias_sat i sat (toTyp r TL) inet ;; set_t0 inet sat tPBIAS ;;; ret i
             else ret i) i
         else ret i) i ;;
  whenM cb (set_iodc tCBIAS (h_iod h) ;;; or_cstat inet tCBIAS) ;;;
  whenM pb (set_iodc tPBIAS (h_iod h) ;;; or_cstat inet tPBIAS) ;;;
  ret (Some i).

(** cssrlib.py:840-855 decode_cssr_ura *)
Definition decode_cssr_ura (i : nat) : M (option nat) :=
  '(h, i) <~ decode_head false i ;;
  iod <~ ask s_iodssr ;;
  if negb (iod =? h_iod h) then ret None else
  set_udi tURA (h_udi h) ;;;
  modlc 0 (set_l_ura (Some [])) ;;;
  n <~ ask s_nsat_n ;;
  i <~ forM n 0 (fun k i =>
         sat <~ sat_k k ;;
         cl <~ ru i 3 ;; va <~ ru (i + 3) 3 ;;
         modlc 0 (fun l => set_l_ura (ozset sat (cl, va) (l_ura l)) l) ;;;
         ret (i + 6)%nat) i ;;
  or_cstat 0 tURA ;;; set_t0 0 0 tURA ;;; ret (Some i).

(** cssrlib.py:857-877 decode_cssr_stec_coeff; lsb 0.05, 0.02, 0.02, 0.02, 0.005, 0.005 *)
Definition decode_stec_coeff (stype : Z) (i : nat) : M (list (option Z) * nat) :=
  a <~ rs i 14 ;;
  let i := (i + 14)%nat in
  '(b, d, i) <~ (if stype >? 0 then
      x <~ rs i 12 ;; y <~ rs (i + 12) 12 ;; ret (sval x 12, sval y 12, (i + 24)%nat)
    else ret (Some 0, Some 0, i)) ;;
  '(e, i) <~ (if stype >? 1 then x <~ rs i 10 ;; ret (sval x 10, (i + 10)%nat) else ret (Some 0, i)) ;;
  '(f, g, i) <~ (if stype >? 2 then
      x <~ rs i 8 ;; y <~ rs (i + 8) 8 ;; ret (sval x 8, sval y 8, (i + 16)%nat)
    else ret (Some 0, Some 0, i)) ;;
  ret ([sval a 14; b; d; e; f; g], i).

(** cssrlib.py:879-907 decode_cssr_stec ('u0' is not a valid format) *)
Definition decode_cssr_stec (i : nat) : M (option nat) :=
  '(h, i) <~ decode_head false i ;;
  iod <~ ask s_iodssr ;;
  if negb (iod =? h_iod h) then ret None else
  modify (set_s_flg_net true) ;;;
  nsat <~ ask s_nsat_n ;;
  st <~ ru i 2 ;; inet <~ ru (i + 2) 5 ;; _ <~ lift (guard (0 <? nsat)%nat) ;; nm <~ ru (i + 7) nsat ;;
  let i := (i + (7 + nsat))%nat in
  modlc inet (set_l_netmask nm) ;;;
  sats <~ decode_local_sat nm ;;
  modlc inet (fun l => set_l_stec_q [] (set_l_nsat_n (Z.of_nat (length sats)) (set_l_sat_n sats l))) ;;;
  set_udi tSTEC (h_udi h) ;;;
  modlc inet (fun l => set_l_stype [] (set_l_ci (Some []) (set_l_flg_stec 2 l))) ;;;
  i <~ eachM sats (fun sat i =>
         set_t0 inet sat tSTEC ;;;
         cl <~ ru i 3 ;; va <~ ru (i + 3) 3 ;;
         modlc inet (fun l => set_l_stec_q (zset sat (cl, va) (l_stec_q l)) l) ;;;
         '(ci, i) <~ decode_stec_coeff st (i + 6) ;;
         modlc inet (fun l => set_l_ci (ozset sat ci (l_ci l)) l) ;;;
         ret i) i ;;
  or_cstat inet tSTEC ;;; ret (Some i).

(** cssrlib.py:909-972 decode_cssr_grid. [dstec[sat]] is a dictionary
    from grid points to values; [self.grid] not loaded raises TypeError *)
Definition app_stec (sat : Z) (j : nat) (v : option Z) (l : lcr) : lcr :=
  set_l_dstec (zset sat (zset (Z.of_nat j) v (match zget sat (l_dstec l) with Some x => x | None => [] end)) (l_dstec l)) l.
(** a numpy array as a dictionary from indices to values *)
Definition np_arr {A} (l : list A) : dict Z A := combine (map Z.of_nat (seq 0 (length l))) l.
Definition decode_cssr_grid (i : nat) : M (option nat) :=
  '(h, i) <~ decode_head false i ;;
  iod <~ ask s_iodssr ;;
  if negb (iod =? h_iod h) then ret None else
  nsat <~ ask s_nsat_n ;;
  ttype <~ ru i 2 ;; range <~ ru (i + 2) 1 ;; inet <~ ru (i + 3) 5 ;;
  _ <~ lift (guard (0 <? nsat)%nat) ;; nm <~ ru (i + 8) nsat ;;
  cl <~ ru (i + 8 + nsat) 3 ;; va <~ ru (i + 11 + nsat) 3 ;; ng <~ ru (i + 14 + nsat) 6 ;;
  let i := (i + (20 + nsat))%nat in
  modify (set_s_flg_net true) ;;; set_udi tTROP (h_udi h) ;;;
  modlc inet (set_l_netmask nm) ;;;
  sats <~ decode_local_sat nm ;;
  modlc inet (fun l => set_l_trop_q (Some (cl, va)) (set_l_ng ng
                      (set_l_nsat_n (Z.of_nat (length sats)) (set_l_sat_n sats l)))) ;;;
  g <~ ask s_grid ;; _ <~ lift g ;;
  let sz := if range =? 0 then 7%nat else 16%nat in
  modlc inet (fun l => set_l_flg_trop (if ttype >? 0 then 3 else 0)
      (set_l_s_sz (fold_left (fun d sat => zset sat (Z.of_nat sz) d) sats [])
      (set_l_dstec (fold_left (fun d sat => zset sat [] d) sats [])
      (set_l_ct (Some CtStd)
      (set_l_dtw (Some (repeat (Some 0) (Z.to_nat ng))) (set_l_dth (Some (repeat (Some 0) (Z.to_nat ng))) l)))))) ;;;
  i <~ forM (Z.to_nat ng) 0 (fun j i =>
         i <~ (if ttype >? 0 then
                 a <~ rs i 9 ;; b <~ rs (i + 9) 8 ;;
                 modlc inet (fun l => set_l_dtw (option_map (fun x => splice x j [sval b 8]) (l_dtw l))
                                     (set_l_dth (option_map (fun x => splice x j [sval a 9]) (l_dth l)) l)) ;;;
                 ret (i + 17)%nat
               else ret i) ;;
         eachM sats (fun sat i =>
           d <~ rs i sz ;;
           modlc inet (app_stec sat j (sval d sz)) ;;;
           ret (i + sz)%nat) i) i ;;
  or_cstat inet tTROP ;;;
  eachM sats (fun sat (_ : unit) => set_t0 inet sat tTROP) tt ;;;
  ret (Some i).

(** cssrlib.py:979-993 decode_cssr_sinfo *)
Definition decode_cssr_sinfo (i : nat) : M (option nat) :=
  _ <~ ru i 1 ;; cnt <~ ru (i + 1) 3 ;; dsize <~ ru (i + 4) 2 ;;
  flg_off ;;;
  let n := Z.to_nat (dsize + 1) in
  let j := (n * 40 * Z.to_nat cnt)%nat in
  '(i, _) <~ forM n 0 (fun _ (a : nat * nat) =>
       let (i, j) := a in
       d <~ ru i 40 ;;
       si <~ ask s_sinfo ;; si <~ lift (putu si j 40 d) ;; modify (set_s_sinfo si) ;;;
       ret ((i + 40)%nat, (j + 40)%nat)) ((i + 6)%nat, j) ;;
  ret (Some i).

(** cssrlib.py:995-1038 decode_cssr_comb *)
Definition decode_cssr_comb (i : nat) : M (option nat) :=
  '(h, i) <~ decode_head false i ;;
  iod <~ ask s_iodssr ;;
  if negb (iod =? h_iod h) then ret None else
  nsat <~ ask s_nsat_n ;;
  orb <~ ru i 1 ;; clk <~ ru (i + 1) 1 ;; net <~ ru (i + 2) 1 ;;
  let orb := orb =? 1 in let clk := clk =? 1 in let net := net =? 1 in
  modify (set_s_flg_net net) ;;;
  let i := (i + 3)%nat in
  '(inet, svm, i) <~ (if net then
      inet <~ ru i 5 ;; _ <~ lift (guard (0 <? nsat)%nat) ;; svm <~ ru (i + 5) nsat ;;
      modify (set_s_inet inet) ;;; modlc inet (set_l_svmask svm) ;;;
      ret (inet, svm, (i + (5 + nsat))%nat)
    else ret (0, 0, i)) ;;
  whenM orb (modlc inet (fun l => set_l_iode (Some []) (set_l_dorb (Some []) l)) ;;; set_udi tORBIT (h_udi h)) ;;;
  whenM clk (modlc inet (set_l_dclk (Some [])) ;;; set_udi tCLOCK (h_udi h)) ;;;
  i <~ forM nsat 0 (fun k i =>
         if net && negb (isset svm nsat k) then ret i else
         sat <~ sat_k k ;;
         i <~ (if orb then
                 sys <~ sys_k k ;;
                 i <~ decode_orb_sat i sat sys inet ;; set_t0 inet sat tORBIT ;;; ret i
               else ret i) ;;
         if clk then
           i <~ decode_clk_sat i sat inet ;; set_t0 inet sat tCLOCK ;;; ret i
         else ret i) i ;;
  whenM clk (or_cstat inet tCLOCK) ;;;
  whenM orb (or_cstat inet tORBIT) ;;;
  ret (Some i).

(** cssrlib.py:1071-1100: troposphere part of the atmospheric message *)
Fixpoint unpack_s (n w i : nat) : option (list Z) :=
  match n with
  | O => Some []
  | S m => do v <- gets msg i w; do r <- unpack_s m w (i + w); Some (v :: r)
  end.
Definition trop_fn (i : nat) : M (option Z * option Z * option Z * option Z * nat) :=
  tt_ <~ ru i 2 ;; t00 <~ rs (i + 2) 9 ;;
  let i := (i + 11)%nat in
  '(t01, t10, i) <~ (if tt_ >? 0 then
      x <~ rs i 7 ;; y <~ rs (i + 7) 7 ;; ret (sval x 7, sval y 7, (i + 14)%nat)
    else ret (Some 0, Some 0, i)) ;;
  '(t11, i) <~ (if tt_ >? 1 then x <~ rs i 7 ;; ret (sval x 7, (i + 7)%nat) else ret (Some 0, i)) ;;
  ret (sval t00 9, t01, t10, t11, i).
(** bs.unpack_from(fmt*0, ...) with zero grid points is the empty format *)
Definition stec_sz_t (k : Z) : nat := nth (Z.to_nat k) [4; 4; 5; 7]%nat 0%nat.

(** cssrlib.py:1040-1148 decode_cssr_atmos. [self.grid] missing raises TypeError, a network
    without grid points raises IndexError ([grid['lat'][0]]); 'u0' is not a valid format *)
Definition decode_cssr_atmos (i : nat) : M (option nat) :=
  '(h, i) <~ decode_head false i ;;
  iod <~ ask s_iodssr ;;
  if negb (iod =? h_iod h) then ret None else
  trop <~ ru i 2 ;; stec <~ ru (i + 2) 2 ;; inet <~ ru (i + 4) 5 ;; ng_ <~ ru (i + 9) 6 ;;
  modify (set_s_flg_net true) ;;;
  let ng := Z.to_nat ng_ in
  modlc inet (fun l => set_l_flg_stec stec (set_l_flg_trop trop (set_l_ng ng_ l))) ;;;
  let i := (i + 15)%nat in
  i <~ (if trop >? 0 then
          cl <~ ru i 3 ;; va <~ ru (i + 3) 3 ;;
          modlc inet (set_l_trop_q (Some (cl, va))) ;;;
          set_udi tTROP (h_udi h) ;;;
          g <~ ask s_grid ;; nids <~ lift g ;; _ <~ lift (guard (existsb (Z.eqb inet) nids)) ;;
          ret (i + 6)%nat
        else ret i) ;;
  modlc inet (set_l_ct (Some (CtVal None 0))) ;;;
  '(fn, i) <~ (if Z.testbit trop 1 then
      '(t00, t01, t10, t11, i) <~ trop_fn i ;;
      modlc inet (set_l_ct (Some (CtVal (Some (t00, t01, t10, t11)) 0))) ;;;
      ret (Some (t00, t01, t10, t11), i)
    else ret (None, i)) ;;
  i <~ (if Z.testbit trop 0 then
      szf <~ ru i 1 ;; ofst <~ ru (i + 1) 4 ;;
      let i := (i + 5)%nat in
      modlc inet (set_l_ct (Some (CtVal fn ofst))) ;;;
      let sz := if szf =? 0 then 6%nat else 8%nat in
      v <~ lift (unpack_s ng sz i) ;;
      modlc inet (set_l_dtw (Some (map (fun x => sval x sz) v))) ;;;
      ret (i + sz * ng)%nat
    else ret i) ;;
  nsat_all <~ ask s_nsat_n ;;
  _ <~ lift (guard (0 <? nsat_all)%nat) ;; nm <~ ru i nsat_all ;;
  let i := (i + nsat_all)%nat in
  modlc inet (set_l_netmask nm) ;;;
  sats <~ decode_local_sat nm ;;
  modlc inet (fun l => set_l_stec_q [] (set_l_nsat_n (Z.of_nat (length sats)) (set_l_sat_n sats l))) ;;;
  set_udi tSTEC (h_udi h) ;;;
  whenM (Z.testbit stec 1) (modlc inet (fun l => set_l_stype [] (set_l_ci (Some []) l))) ;;;
  whenM (Z.testbit stec 0) (modlc inet (fun l => set_l_s_sz [] (set_l_dstec [] l))) ;;;
  i <~ eachM sats (fun sat i =>
         set_t0 inet sat tSTEC ;;;
         i <~ (if stec >? 0 then
                 cl <~ ru i 3 ;; va <~ ru (i + 3) 3 ;;
                 modlc inet (fun l => set_l_stec_q (zset sat (cl, va) (l_stec_q l)) l) ;;;
                 ret (i + 6)%nat
               else ret i) ;;
         i <~ (if Z.testbit stec 1 then
                 st <~ ru i 2 ;;
                 modlc inet (fun l => set_l_stype (zset sat st (l_stype l)) l) ;;;
                 '(ci, i) <~ decode_stec_coeff st (i + 2) ;;
                 modlc inet (fun l => set_l_ci (ozset sat ci (l_ci l)) l) ;;;
                 ret i
               else ret i) ;;
         if Z.testbit stec 0 then
           sz_idx <~ ru i 2 ;;
           let sz := stec_sz_t sz_idx in
           modlc inet (fun l => set_l_s_sz (zset sat (Z.of_nat sz) (l_s_sz l)) l) ;;;
           v <~ lift (unpack_s ng sz (i + 2)) ;;
           modlc inet (fun l => set_l_dstec (zset sat (np_arr (map (fun x => sval x sz) v)) (l_dstec l)) l) ;;;
           ret (i + 2 + sz * ng)%nat
         else ret i) i ;;
  whenM (trop >? 0) (or_cstat inet tTROP ;;; set_t0 inet 0 tTROP) ;;;
  whenM (stec >? 0) (or_cstat inet tSTEC) ;;;
  ret (Some i).

(** cssrlib.py:1150-1193 decode_cssr. [fuel] bounds the number of messages (CssrLoop proves that
    [length msg / 16 + 1] is always enough).  Outcomes: [ROther] = returned -1 on a foreign
    message type, [RStop] = returned 0, [RExc] = exception, [RFuel] = fuel exhausted. *)
Inductive outcome := ROther | RStop | RExc | RFuel.
Definition decode_sub (st : Z) (i : nat) : M (option nat) :=
  match st with
  | 1 => decode_cssr_mask i | 2 => decode_cssr_orb i | 3 => decode_cssr_clk i
  | 4 => decode_cssr_cbias i | 5 => decode_cssr_pbias i | 6 => decode_cssr_bias i
  | 7 => decode_cssr_ura i | 8 => decode_cssr_stec i | 9 => decode_cssr_grid i
  | 10 => decode_cssr_sinfo i | 11 => decode_cssr_comb i | 12 => decode_cssr_atmos i
  | _ => ret (Some i)
  end.
Fixpoint decode_loop (fuel : nat) (i : nat) (s : cst) : cst * outcome :=
  match fuel with
  | O => (s, RFuel)
  | S fuel =>
    match getu msg i 12, getu msg (i + 12) 4 with
    | Some mt, Some st =>
      if negb (mt =? 4073) then (s, ROther) else
      let s := set_s_subtype st s in
      match decode_sub st (i + 16) s with
      | (s, None) => (s, RExc)
      | (s, Some None) => (s, RStop)
      | (s, Some (Some i)) => if (i =? 0)%nat then (s, RStop) else decode_loop fuel i s
      end
    | _, _ => (s, RExc)
    end
  end.
Definition decode_cssr (i : nat) (s : cst) : cst * outcome :=
  decode_loop (length msg / 16 + 1) i s.
End D.

(* ---------- initial state, cssrlib.py:218-361 ---------- *)
Definition cssr_init (week : Z) (local_pbias : bool) (grid : option (list Z)) : cst :=
  CS week (-1) 0 gtime0 0 0 (-1) (-1) [] [] 0 [] (repeat 0 16) (repeat 0 16) [] 0 [] [] [] [] 0 0 []
     false (-1) (-1) local_pbias (repeat 0 16) (repeat (-1) 16) (repeat false 1280) grid (repeat lc_init 33).

(** cssrlib.py:1195-1206 chk_stat; [inet_ref] = -1 is Python's last element lc[32] *)
Definition chk_stat (s : cst) : bool :=
  let cg := l_cstat (lcat s 0) in
  let cl := l_cstat (lcat s (if s_inet_ref s <? 0 then 33 + s_inet_ref s else s_inet_ref s)) in
  if negb (Z.land cg 0x0f =? 0x0f) then false
  else if negb (Z.land cl 0x60 =? 0x60) then false
  else if s_local_pbias s && negb (Z.land cl 0x10 =? 0x10) then false
  else true.

(** cssrlib.py:1208-1217 check_validity; [U] ticks per second, limits CLOCK 30 s, ORBIT 120 s
    (cssrlib.py:347-349) in ticks. A satellite without reference time raises KeyError; assigning
    into a correction that was never received raises TypeError. *)
Definition check_validity (U : Z) (tmax_clk tmax_orb : Z) (time : gtime) : M unit :=
  sats <~ ask s_sat_n ;;
  eachM sats (fun sat (_ : unit) =>
    t0 <~ ask (fun s => zget sat (l_t0 (lcat s 0))) ;; t0 <~ lift t0 ;;
    tc <~ lift (zget tCLOCK t0) ;;
    (if timediff U time tc >? tmax_clk then
       d <~ ask (fun s => l_dclk (lcat s 0)) ;; d <~ lift d ;;
       modlc 0 (set_l_dclk (Some (zset sat (Some 0) d)))
     else ret tt) ;;;
    to <~ lift (zget tORBIT t0) ;;
    if timediff U time to >? tmax_orb then
      d <~ ask (fun s => l_iode (lcat s 0)) ;; d <~ lift d ;;
      modlc 0 (set_l_iode (Some (zset sat (-1) d))) ;;;
      d <~ ask (fun s => l_dorb (lcat s 0)) ;; d <~ lift d ;;
      modlc 0 (set_l_dorb (Some (zset sat (Some 0, Some 0, Some 0) d)))
    else ret tt) tt.
