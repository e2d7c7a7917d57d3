(** Assembly of QZSS L6 messages into a frame buffer: /repo/src/cssrlib/cssrlib.py:1392-1423
    (decode_l6msg), attributes cssrlib.py:301-314. *)
From Verif Require Export Base BitModel.
Open Scope Z_scope.

(** attributes facility, fcnt, pattern, sid, buff, buff_p of [cssr] *)
Record l6st := L6 { l_fac : Z; l_cnt : Z; l_pat : Z; l_sid : Z; l_buf : bits; l_bufp : option bits }.
(** bytearray(250*10) *)
Definition l6_zero : bits := repeat false (Z.to_nat 20000).
(** cssrlib.py:301-314; sid and pattern start as -1 *)
Definition l6_init : l6st := L6 (-1) (-1) (-1) (-1) l6_zero None.

(** cssrlib.py:1397 facility_t (Table 4.1.2-2); IndexError outside *)
Definition facility_t (pt fac : Z) : option Z :=
  match pt with
  | 0 => nth_error [0; 2; 1; 3] (Z.to_nat fac)
  | 1 => nth_error [2; 0; 3; 1] (Z.to_nat fac)
  | _ => None
  end.

(** gnss.py:1738-1748 copy_buff with the destination as left behind when a word does not fit:
    [(dst, true)] = returned, [(dst, false)] = bitstruct.Error *)
Fixpoint copy_words (src : bits) (w os od : nat) (ks : list nat) (dst : bits) : bits * bool :=
  match ks with
  | [] => (dst, true)
  | k :: r => match copy_step src w os od k dst with
              | Some d => copy_words src w os od r d
              | None => (dst, false)
              end
  end.
Definition copy_buff_st (src dst : bits) (os od blen : nat) : bits * bool :=
  let b := (blen / 32)%nat in
  let r := (blen - b * 32)%nat in
  match copy_words src 32 os od (seq 0 b) dst with
  | (d, true) => if (0 <? r)%nat then copy_words src r os od [b] d else (d, true)
  | (d, false) => (d, false)
  end.

(** result of a call: None (message appended), -1 (ignored), exception *)
Inductive l6res := L6Ok | L6Skip | L6Exc.

(** cssrlib.py:1392-1423; printing omitted *)
Definition decode_l6msg (msg : bits) (ofst : nat) (s : l6st) : l6st * l6res :=
  let i := (ofst * 8)%nat in
  match getu msg i 32, getu msg (i + 40) 3, getu msg (i + 43) 2, getu msg (i + 45) 2, getu msg (i + 47) 1, getu msg (i + 48) 1 with
  | Some pre, Some vendor, Some fac, Some pt, Some sid, Some alert =>
    if negb (pre =? 0x1acffc1d) then (s, L6Skip)
    else
      let i := (i + 49)%nat in
      let s := if sid =? 1 then L6 (l_fac s) 0 (l_pat s) (l_sid s) l6_zero (Some (l_buf s)) else s in
      match (if vendor =? 5 then facility_t pt fac else Some fac) with
      | None => (s, L6Exc)
      | Some f =>
        let cnt := if (l_fac s >=? 0) && negb (f =? l_fac s) then -1 else l_cnt s in
        let s := L6 f cnt pt sid (l_buf s) (l_bufp s) in
        if cnt <? 0 then (s, L6Skip)
        else match copy_buff_st msg (l_buf s) i (1695 * Z.to_nat cnt) 1695 with
             | (b, true) => (L6 f (cnt + 1) pt sid b (l_bufp s), L6Ok)
             | (b, false) => (L6 f cnt pt sid b (l_bufp s), L6Exc)
             end
      end
  | _, _, _, _, _, _ => (s, L6Exc)
  end.

(** a receiver: messages with the byte offset given to decode_l6msg, oldest first *)
Fixpoint run_l6 (h : list (bits * nat)) (s : l6st) : l6st :=
  match h with
  | [] => s
  | (m, o) :: r => run_l6 r (fst (decode_l6msg m o s))
  end.
