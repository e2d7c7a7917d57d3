(** Galileo HAS page collection: class cnav_msg, /repo/src/cssrlib/cssr_has.py:135-231. *)
From Verif Require Export Base.
Open Scope Z_scope.

(** attributes mid_decoded, mid_, ms_, rec, has_pages (255 rows of 53 bytes), icnt, msgtype *)
Record hst := HS { mid_dec : list Z; mid_ : Z; ms_ : Z; rec_ : list Z; pages_ : list (list Z);
                   icnt : Z; mtype : Z }.
(** cssr_has.py:138-149 *)
Definition has_init : hst := HS [] (-1) (-1) [] (repeat (repeat 0 53) 255) 0 (-1).

(** numpy row index: a negative index counts from the end *)
Definition row_ix (r : Z) : nat := Z.to_nat (if r <? 0 then 255 + r else r).

(** header of a page, cssr_has.py:181-200 *)
Inductive pghead := PSkip | PPage (mt mid ms pid : Z).
Definition page_head (b : bits) : option pghead :=
  do w <- getu b 14 24;
  if w =? 0xaf3bc3 then Some PSkip else
  do hass <- getu b 14 2; do _ <- getu b 16 2;
  if hass >=? 2 then Some PSkip else
  do mt <- getu b 18 2; do mid <- getu b 20 5; do ms <- getu b 25 5; do pid <- getu b 30 8;
  Some (PPage mt mid (ms + 1) pid).
(** bs.unpack_from('u8'*n, buff, i) *)
Fixpoint get_bytes (b : bits) (i n : nat) : option (list Z) :=
  match n with
  | O => Some []
  | S n => do v <- getu b i 8; do r <- get_bytes b (i + 8) n; Some (v :: r)
  end.

(** cssr_has.py:179-210: one received page; [false] = bitstruct.Error *)
Definition has_page (b : bits) (s : hst) : hst * bool :=
  match page_head b with
  | None => (s, false)
  | Some PSkip => (s, true)
  | Some (PPage mt mid ms pid) =>
    let s := HS (mid_dec s) (mid_ s) (ms_ s) (rec_ s) (pages_ s) (icnt s) mt in
    let s := if (mid_ s =? -1) && negb (existsb (Z.eqb mid) (mid_dec s))
             then HS (mid_dec s) mid ms (rec_ s) (pages_ s) (icnt s) (mtype s) else s in
    if (mid =? mid_ s) && negb (existsb (Z.eqb (pid - 1)) (rec_ s)) then
      match get_bytes b 38 53 with
      | None => (s, false)
      | Some page => (HS (mid_dec s) (mid_ s) (ms_ s) (rec_ s ++ [pid - 1])
                         (splice (pages_ s) (row_ix (pid - 1)) [page]) (icnt s) (mtype s), true)
      end
    else (s, true)
  end.
Fixpoint has_collect (l : list bits) (s : hst) : hst * bool :=
  match l with
  | [] => (s, true)
  | b :: r => match has_page b s with (s, true) => has_collect r s | (s, false) => (s, false) end
  end.

Section Solve.
(** cssr_has.py:162-172 decode_has_page on the selected row numbers and page rows; [None] =
    LinAlgError.  Instantiated in HasField.v. *)
Context {Msg : Type} (solve : list Z -> list (list Z) -> option Msg).

(** cssr_has.py:174-231: [None] = exception, [Some None] = nothing yet, [Some (Some m)] = message *)
Definition decode_cnav (vi : list bits) (s : hst) : hst * option (option Msg) :=
  match has_collect vi s with
  | (s, false) => (s, None)
  | (s, true) =>
    if (ms_ s >? 0) && (Z.of_nat (length (rec_ s)) >=? ms_ s) then
      match solve (rec_ s) (map (fun r => nth (row_ix r) (pages_ s) []) (rec_ s)) with
      | None => (s, None)
      | Some m =>
        let d := mid_dec s ++ [mid_ s] in
        (HS (if (10 <? length d)%nat then skipn 1 d else d) (-1) (ms_ s) [] (pages_ s) (icnt s) (mtype s),
         Some (Some m))
      end
    else
      let ic := icnt s + 1 in
      if (ic >? 2 * ms_ s) && negb (mid_ s =? -1)
      then (HS (mid_dec s) (-1) (ms_ s) [] (pages_ s) 0 (mtype s), Some None)
      else (HS (mid_dec s) (mid_ s) (ms_ s) (rec_ s) (pages_ s) ic (mtype s), Some None)
  end.

(** a receiver: state after a history of calls, and the messages delivered with their identifiers *)
Definition cnav_step (a : hst * list (Z * Msg)) (vi : list bits) : hst * list (Z * Msg) :=
  let '(s, log) := a in
  match decode_cnav vi s with
  | (s', Some (Some m)) => (s', log ++ [(mid_ (fst (has_collect vi s)), m)])
  | (s', _) => (s', log)
  end.
Definition cnav_run (h : list (list bits)) : hst * list (Z * Msg) := fold_left cnav_step h (has_init, []).
End Solve.
