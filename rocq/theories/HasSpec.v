(** What a received Galileo E6 page says, independently of the collector. *)
From Verif Require Import HasModel.
Open Scope Z_scope.

Record hpage := HP { p_mid : Z; p_ms : Z; p_pid : Z; p_data : list Z }.
Definition fieldv (b : bits) (i n : nat) : Z := bval (slice b i n).
(** a page carrying part of a HAS message: not the dummy page, status test or operational *)
Definition carries (b : bits) : bool := negb (fieldv b 14 24 =? 0xaf3bc3) && (fieldv b 14 2 <? 2).
Definition page_of (b : bits) : hpage :=
  HP (fieldv b 20 5) (fieldv b 25 5 + 1) (fieldv b 30 8)
     (map (fun k => fieldv b (38 + 8 * k) 8) (seq 0 53)).
(** pages received in a call / in a history of calls *)
Definition call_pages (c : list bits) : list hpage := map page_of (filter carries c).
Definition hist_pages (h : list (list bits)) : list hpage := concat (map call_pages h).
(** complete buffers *)
Definition complete (c : list bits) : Prop := Forall (fun b => (462 <= length b)%nat) c.
(** identifiers of the last ten messages delivered *)
Definition last_ten (l : list Z) : list Z := skipn (length l - 10) l.
(** number of different page identifiers of message [mid] among [P] *)
Definition distinct_pages (mid : Z) (P : list hpage) : nat :=
  length (nodup Z.eq_dec (map p_pid (filter (fun p => p_mid p =? mid) P))).
