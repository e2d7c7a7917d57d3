(** RINEX observation files: /repo/src/cssrlib/rinex.py 63-80 (setSignals, getSignals), 812-866
    (_decode_obsh), 868-984 (decode_obs), 987-999 (sync_obs).

    A file is the list of its lines (with line ends); text is a list of characters (code points below
    256).  [None] = exception.  Abstracted: [verlow] = [float(line[4:10]) < 3.02], [misc] = the branches
    that only set rcv, ant, pos, ecc, ts, te (whether they raise), [fl] = float of a non-empty text
    (observations), [fsec] = float of the seconds field.  int() of a text with underscores is taken to
    fail. *)
From Coq Require Import Ascii String.
From Verif Require Export TimeModel SatModel SigModel CssrState Base.
Notation length := List.length.
Open Scope Z_scope.

Definition text := list ascii.
Definition lit (s : string) : text := list_ascii_of_string s.
(** l[a:b] *)
Definition sub (a b : nat) (l : text) : text := firstn (b - a) (skipn a l).
Fixpoint teq (a b : text) : bool :=
  match a, b with
  | [], [] => true
  | x :: a, y :: b => Ascii.eqb x y && teq a b
  | _, _ => false
  end.
(** p in l *)
Fixpoint contains (p l : text) : bool :=
  teq p (firstn (length p) l) || match l with [] => false | _ :: l' => contains p l' end.
(** str.strip *)
Fixpoint lstr (l : text) : text := match l with c :: r => if is_space c then lstr r else l | [] => [] end.
Definition strp (l : text) : text := rev (lstr (rev (lstr l))).
(** str.split() *)
Fixpoint split_ (cur l : text) : list text :=
  match l with
  | [] => match cur with [] => [] | _ => [rev cur] end
  | c :: r => if is_space c then match cur with [] => split_ [] r | _ => rev cur :: split_ [] r end
              else split_ (c :: cur) r
  end.
Definition psplit (l : text) : list text := split_ [] l.
(** int(str) *)
Fixpoint digits (acc : Z) (l : text) : option Z :=
  match l with [] => Some acc | c :: r => do d <- digit c; digits (10 * acc + d) r end.
Definition pyint (l : text) : option Z :=
  match strp l with
  | [] => None
  | c :: r => if Ascii.eqb c "-" then match r with [] => None | _ => do v <- digits 0 r; Some (- v) end
              else if Ascii.eqb c "+" then match r with [] => None | _ => digits 0 r end
              else digits 0 (c :: r)
  end.
(** file.readline(): empty at the end *)
Definition readline (f : list text) : text * list text := match f with [] => ([], []) | l :: f => (l, f) end.

Definition gget {V} := @dget gnss V gnss_eqb.
Definition gset {V} := @dset gnss V gnss_eqb.

(* ---------- header ---------- *)
Section Hdr.
Context (verlow : text -> option bool) (misc : text -> option unit).
(** sig_map and glo_ch *)
Record hst := HST { h_map : dict gnss (dict Z rsig); h_glo : dict Z Z }.
(** rinex.py:844-846: the continuation lines *)
Fixpoint more (k : nat) (f : list text) (sigs : list text) : list text * list text :=
  match k with
  | O => (sigs, f)
  | S k => let (l, f) := readline f in more k f (sigs ++ psplit (sub 7 60 l))
  end.
(** rinex.py:850-854 *)
Fixpoint reg_sigs (g : gnss) (i : Z) (sigs : list text) (m : dict gnss (dict Z rsig)) : option (dict gnss (dict Z rsig)) :=
  match sigs with
  | [] => Some m
  | s :: r =>
      do q <- mk2 g (string_of_list_ascii s);
      let m := match gget g m with Some _ => m | None => gset g [] m end in
      let d := match gget g m with Some d => d | None => [] end in
      reg_sigs g (i + 1) r (gset g (zset i q d) m)
  end.
(** rinex.py:861-868; [n] satellites from number [i] on *)
Fixpoint slots (n : nat) (i : nat) (line : text) (f : list text) (d : dict Z Z) : option (dict Z Z * list text) :=
  match n with
  | O => Some (d, f)
  | S n =>
      let '(line, f) := if (0 <? i)%nat && (i mod 8 =? 0)%nat then readline f else (line, f) in
      let j := (i mod 8)%nat in
      match id2sat (string_of_list_ascii (sub (4 + 7 * j) (7 + 7 * j) line)) with
      | Err => None
      | Ret sat => do ch <- pyint (sub (8 + 7 * j) (10 + 7 * j) line); slots n (S i) line f (zset sat ch d)
      end
  end.
(** rinex.py:812-870: return value, attributes, unread lines *)
Fixpoint hdr_loop (fuel : nat) (f : list text) (s : hst) : option (Z * hst * list text) :=
  match fuel, f with
  | O, _ => None
  | _, [] => Some (0, s, [])
  | S fuel, line :: f =>
    if teq (sub 60 73 line) (lit "END OF HEADER") then Some (0, s, f)
    else if teq (sub 60 80 line) (lit "RINEX VERSION / TYPE") then
      do low <- verlow (sub 4 10 line); if low then Some (-1, s, f) else hdr_loop fuel f s
    else if contains (lit "REC # / TYPE / VERS") line then hdr_loop fuel f s
    else if contains (lit "ANT # / TYPE") line then hdr_loop fuel f s
    else if teq (sub 60 79 line) (lit "APPROX POSITION XYZ") then do _ <- misc line; hdr_loop fuel f s
    else if contains (lit "ANTENNA: DELTA H/E/N") (skipn 60 line) then do _ <- misc line; hdr_loop fuel f s
    else if teq (sub 60 79 line) (lit "SYS / # / OBS TYPES") then
      match line with
      | [] => None
      | c :: _ =>
        let g := char2sys c in
        do nsig <- pyint (sub 3 6 line);
        let (sigs, f) := more (Z.to_nat (Z.quot nsig 14)) f (psplit (sub 7 60 line)) in
        do m <- reg_sigs g 0 sigs (h_map s);
        hdr_loop fuel f (HST m (h_glo s))
      end
    else if contains (lit "TIME OF FIRST OBS") (skipn 60 line) then do _ <- misc line; hdr_loop fuel f s
    else if contains (lit "TIME OF LAST OBS") (skipn 60 line) then do _ <- misc line; hdr_loop fuel f s
    else if contains (lit "GLONASS SLOT / FRQ #") (skipn 60 line) then
      do n <- pyint (sub 0 3 line);
      do (d, f) <- slots (Z.to_nat n) 0 line f (h_glo s);
      hdr_loop fuel f (HST (h_map s) d)
    else hdr_loop fuel f s
  end.
Definition decode_obsh (f : list text) (s : hst) : option (Z * hst * list text) := hdr_loop (S (length f)) f s.
End Hdr.

(* ---------- observations ---------- *)
Section Obs.
Context {V : Type} (zero : V) (fl : text -> option V) (fsec : text -> option Z) (U : Z).
Definition tget {W} := @dget typ W typ_eqb.
Definition tset {W} := @dset typ W typ_eqb.
(** sig_tab: constellation -> type -> signals *)
Definition sigtab := dict gnss (dict typ (list rsig)).
(** rinex.py:63-80 setSignals; [None] = ValueError (duplicate) *)
Fixpoint set_signals (l : list rsig) (t : sigtab) : option sigtab :=
  match l with
  | [] => Some t
  | q :: r =>
      let d := match gget (rsys q) t with Some d => d | None => [] end in
      let s := match tget (rtyp q) d with Some s => s | None => [] end in
      if existsb (rsig_eqb q) s then None else set_signals r (gset (rsys q) (tset (rtyp q) (s ++ [q]) d) t)
  end.
(** self.nsig[typ] of a decoder that has called setSignals once *)
Definition nsig (t : sigtab) (ty : typ) : nat :=
  fold_right (fun e m => match tget ty (snd e) with Some s => Nat.max (length s) m | None => m end) 0%nat t.
Definition signals (t : sigtab) (g : gnss) (ty : typ) : list rsig :=
  match gget g t with Some d => match tget ty d with Some s => s | None => [] end | None => [] end.

(** the five arrays of one satellite *)
Record orow := OROW { w_pr : list V; w_cp : list V; w_ll : list Z; w_dp : list V; w_cn : list V }.
Definition row_new (t : sigtab) (g : gnss) : orow :=
  let n ty := length (signals t g ty) in
  OROW (repeat zero (n TC)) (repeat zero (n TL)) (repeat 0 (n TL)) (repeat zero (n TD)) (repeat zero (n TS)).
Fixpoint pos (q : rsig) (l : list rsig) : option nat :=
  match l with [] => None | x :: r => if rsig_eqb x q then Some 0%nat else do k <- pos q r; Some (S k) end.
(** rinex.py:934-970: one column of the header *)
Definition put_obs (t : sigtab) (g : gnss) (line : text) (e : Z * rsig) (w : orow) : option orow :=
  let '(i, q) := e in
  match pos q (signals t g (rtyp q)) with
  | None => Some w
  | Some j =>
      let i := Z.to_nat i in
      let sval := strp (sub (16 * i + 3) (16 * i + 17) line) in
      let lli := match nth_error line (16 * i + 17) with Some c => if Ascii.eqb c "1" then 1 else 0 | None => 0 end in
      do v <- (match sval with [] => Some zero | _ => fl sval end);
      let set {A} (l : list A) (x : A) := upd j (fun _ => x) l in
      Some (match rtyp q with
            | TC => OROW (set (w_pr w) v) (w_cp w) (w_ll w) (w_dp w) (w_cn w)
            | TL => OROW (w_pr w) (set (w_cp w) v) (set (w_ll w) lli) (w_dp w) (w_cn w)
            | TD => OROW (w_pr w) (w_cp w) (w_ll w) (set (w_dp w) v) (w_cn w)
            | TS => OROW (w_pr w) (w_cp w) (w_ll w) (w_dp w) (set (w_cn w) v)
            | TNONE => w
            end)
  end.
(** rinex.py:898-978: one satellite line; [Some None] = skipped *)
Definition sat_line (m : dict gnss (dict Z rsig)) (t : sigtab) (line : text) : option (option (Z * orow)) :=
  match line with
  | [] => None
  | c :: _ =>
      let g := char2sys c in
      match gget g m, gget g t with
      | Some d, Some _ =>
          do prn <- pyint (sub 1 3 line);
          let prn := match g with QZS => prn + 192 | SBS => prn + 100 | _ => prn end in
          do w <- mfold (put_obs t g line) d (row_new t g);
          Some (Some (prn2sat g prn, w))
      | _, _ => Some None
      end
  end.
Fixpoint sat_lines (n : nat) m t (f : list text) (acc : list (Z * orow)) : option (list (Z * orow) * list text) :=
  match n with
  | O => Some (acc, f)
  | S n => let (line, f) := readline f in
           do r <- sat_line m t line;
           sat_lines n m t f (match r with Some x => acc ++ [x] | None => acc end)
  end.
(** the flat arrays of rinex.py:972-978 and their reshape (980-984); [None] = ValueError *)
Fixpoint chunks {A} (n k : nat) (l : list A) : list (list A) :=
  match n with O => [] | S n => firstn k l :: chunks n k (skipn k l) end.
Definition reshape {A} (n k : nat) (l : list A) : option (list (list A)) :=
  if (length l =? n * k)%nat then Some (chunks n k l) else None.
Record oobs := OOBS { x_t : gtime; x_sat : list Z; x_P : list (list V); x_L : list (list V); x_lli : list (list Z);
                      x_D : list (list V); x_S : list (list V) }.
(** rinex.py:868-984; [Some None] = end of file *)
Fixpoint decode_obs (m : dict gnss (dict Z rsig)) (t : sigtab) (f : list text) : option (option oobs * list text) :=
  match f with
  | [] => Some (None, [])
  | line :: f =>
      match line with
      | [] => None
      | c :: _ =>
        if negb (Ascii.eqb c ">") then decode_obs m t f else
        do nsat <- pyint (sub 32 35 line);
        do y <- pyint (sub 2 6 line); do mo <- pyint (sub 7 9 line); do d <- pyint (sub 10 12 line);
        do h <- pyint (sub 13 15 line); do mi <- pyint (sub 16 18 line); do s <- fsec (sub 19 29 line);
        do (rows, f) <- sat_lines (Z.to_nat nsat) m t f [];
        let n := length rows in
        do P <- reshape n (nsig t TC) (flat_map (fun r => w_pr (snd r)) rows);
        do L <- reshape n (nsig t TL) (flat_map (fun r => w_cp (snd r)) rows);
        do D <- reshape n (nsig t TD) (flat_map (fun r => w_dp (snd r)) rows);
        do cn <- reshape n (nsig t TS) (flat_map (fun r => w_cn (snd r)) rows);
        do ll <- reshape n (nsig t TL) (flat_map (fun r => w_ll (snd r)) rows);
        Some (Some (OOBS (epoch2time U (EP y mo d h mi s)) (map fst rows) P L ll D cn), f)
      end
  end.
End Obs.

(* ---------- pairing of rover and base epochs ---------- *)
(** rinex.py:987-999 over the sequences of epochs still to be read; [None] = still running or end of
    a file.  [th] is dt_th in ticks. *)
Fixpoint sync_loop {A B} (fuel : nat) (U th : Z) (ta : A -> gtime) (tb : B -> gtime) (fa : list A) (fb : list B) : option (A * B * list A * list B) :=
  match fuel with
  | O => None
  | S fuel =>
    match fa, fb with
    | a :: fa', b :: fb' =>
        let dt := timediff U (ta a) (tb b) in
        if Z.abs dt <=? th then Some (a, b, fa', fb')
        else if dt >? th then sync_loop fuel U th ta tb fa fb'
        else sync_loop fuel U th ta tb fa' fb
    | _, _ => None
    end
  end.
Definition sync_obs {A B} (U th : Z) (ta : A -> gtime) (tb : B -> gtime) (fa : list A) (fb : list B) :=
  sync_loop (length fa + length fb) U th ta tb fa fb.
