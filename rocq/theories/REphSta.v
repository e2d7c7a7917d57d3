(** Reading RTCM station messages. *)
From Verif Require Import SatModel CssrState RawModel REphModel REphSpec.
From Verif Require Import Base BaseFacts FieldFacts.
From Coq Require Import ZifyBool ZifyNat.
Notation length := List.length.
Open Scope Z_scope.

Lemma text_len l : length (text_bits l) = (8 * length l)%nat.
Proof. unfold text_bits. induction l as [|a l IH]; [reflexivity|]. cbn [flat_map]. rewrite app_length, bitsof_length, IH. cbn [length]. lia. Qed.
Lemma at_app b o x y : At b o (x ++ y) -> At b o x /\ At b (o + length x) y.
Proof.
  intros (p & s & -> & L). split; [exists p, (y ++ s); split; [now rewrite <- app_assoc|exact L]|].
  exists (p ++ x), s. split; [now rewrite <- !app_assoc|]. rewrite app_length. lia.
Qed.
Lemma at_text b o l j : At b o (text_bits l) -> o = (8 * j)%nat -> btext b j (length l) = text_bits l.
Proof.
  intros (p & s & -> & L) E. unfold btext. rewrite skipn_app, skipn_all2 by lia. replace (8 * j - length p)%nat with 0%nat by lia. cbn [skipn app].
  rewrite firstn_app, firstn_all2 by (rewrite text_len; lia). replace (8 * length l - length (text_bits l))%nat with 0%nat by (rewrite text_len; lia). cbn [firstn]. apply app_nil_r.
Qed.
Lemma at_u b o n v (m : nat) : At b o (bitsof m v) -> n = m -> U (Z.of_nat m) v -> getu b o n = Some v.
Proof. intros A -> R. apply (getu_u b o [(m # v)%nat] o m v); [|apply Nat.leb_refl| |exact R]; [|now rewrite Nat.sub_diag]. unfold enc. cbn. now rewrite app_nil_r. Qed.
(** a text with its length *)
Lemma rd_text b o l rest : At b o (text_fields l ++ rest) -> text_ok l ->
  getu b o 8 = Some (Z.of_nat (length l)) /\ (forall j, (o + 8 = 8 * j)%nat -> btext b j (length l) = text_bits l) /\ At b (o + 8 + 8 * length l) rest.
Proof.
  intros A [_ Hl]. unfold text_fields in A. rewrite <- app_assoc in A. apply at_app in A as [A1 A2]. apply at_app in A2 as [A2 A3]. rewrite bitsof_length in *. rewrite text_len in A3.
  split; [|split; [|exact A3]].
  - apply (at_u b o 8 _ 8 A1 eq_refl). unfold U. change (2 ^ Z.of_nat 8) with 256. lia.
  - intros j E. now apply (at_text b (o + 8)).
Qed.
Lemma four a b c d l : U 1 a -> U 1 b -> U 1 c -> U 1 d -> enc ((1 # a) :: (1 # b) :: (1 # c) :: (1 # d) :: l) = enc ((4 # 8 * a + 4 * b + 2 * c + d) :: l).
Proof.
  unfold U. change (2 ^ 1) with 2. intros. unfold enc. cbn [flat_map fst snd]. rewrite !app_assoc. f_equal.
  assert (a = 0 \/ a = 1) as [->| ->] by lia; assert (b = 0 \/ b = 1) as [->| ->] by lia; assert (c = 0 \/ c = 1) as [->| ->] by lia; assert (d = 0 \/ d = 1) as [->| ->] by lia; reflexivity.
Qed.
Lemma u4 a b c d : U 1 a -> U 1 b -> U 1 c -> U 1 d -> U 4 (8 * a + 4 * b + 2 * c + d) /\ Z.land (8 * a + 4 * b + 2 * c + d) 1 = d.
Proof.
  unfold U. change (2 ^ 1) with 2. change (2 ^ 4) with 16. intros. split; [lia|]. change 1 with (Z.ones 1). rewrite Z.land_ones by lia. change (2 ^ 1) with 2.
  replace (8 * a + 4 * b + 2 * c + d) with (d + (4 * a + 2 * b + c) * 2) by lia. rewrite Z.mod_add by lia. apply Z.mod_small. lia.
Qed.
Lemma enc_split l l' : enc (l ++ l') = enc l ++ enc l'.
Proof. apply flat_map_app. Qed.
Lemma arp_split id itrf gps glo gal virt x osc r1 y quarter z l : U 1 gps -> U 1 glo -> U 1 gal -> U 1 virt ->
  enc (arp_fields id itrf gps glo gal virt x osc r1 y quarter z ++ l) =
  enc ([(12 # id); (6 # itrf); (4 # 8 * gps + 4 * glo + 2 * gal + virt); (38 # x); (1 # osc); (1 # r1); (38 # y); (2 # quarter); (38 # z)] ++ l).
Proof.
  intros. unfold arp_fields. cbn [app]. pose proof (four gps glo gal virt ((38 # x) :: (1 # osc) :: (1 # r1) :: (38 # y) :: (2 # quarter) :: (38 # z) :: l) ltac:(assumption) ltac:(assumption) ltac:(assumption) ltac:(assumption)) as E.
  unfold enc in *. cbn [flat_map fst snd] in *. do 2 f_equal. exact E.
Qed.
Ltac inn := eapply bind_eq; [rds; reflexivity|]; cbv beta iota.
Lemma sta_ok5 hd s rest id itrf gps glo gal virt x osc r1 y quarter z : let m := S1005 id itrf gps glo gal virt x osc r1 y quarter z in
  sta_ok m -> decode_sta s (smsg hd m rest) = Some (sta_after 0 m s, 176%nat).
Proof.
  intros m (? & Ha & Hb & Hc & Hd & ? & ? & ?). unfold decode_sta. set (b := smsg hd m rest). destruct (u4 gps glo gal virt Ha Hb Hc Hd) as [? E4].
  assert (A : At b 0 (enc ([(24 # hd); (12 # 1005)] ++ [(12 # id); (6 # itrf); (4 # 8 * gps + 4 * glo + 2 * gal + virt); (38 # x); (1 # osc); (1 # r1); (38 # y); (2 # quarter); (38 # z)] ++ []))).
  { exists [], rest. split; [|reflexivity]. unfold b, m, smsg. cbn [stano sta_bits]. rewrite enc_split, <- app_assoc, <- arp_split by assumption. now rewrite app_nil_r. }
  clearbody b. cbn [app] in A. assert (U 12 1005) by (unfold U; lia). rd1. cbn [Z.eqb Pos.eqb orb]. unfold decode_sta_pos. cbn [Z.eqb Pos.eqb orb bind]. rds. inn. rds. rewrite E4. destruct s; reflexivity.
Qed.
Lemma sta_ok6 hd s rest id itrf gps glo gal virt x osc r1 y quarter z h : let m := S1006 id itrf gps glo gal virt x osc r1 y quarter z h in
  sta_ok m -> decode_sta s (smsg hd m rest) = Some (sta_after 0 m s, 192%nat).
Proof.
  intros m (? & Ha & Hb & Hc & Hd & ? & ? & ? & ?). unfold decode_sta. set (b := smsg hd m rest). destruct (u4 gps glo gal virt Ha Hb Hc Hd) as [? E4].
  assert (A : At b 0 (enc ([(24 # hd); (12 # 1006)] ++ [(12 # id); (6 # itrf); (4 # 8 * gps + 4 * glo + 2 * gal + virt); (38 # x); (1 # osc); (1 # r1); (38 # y); (2 # quarter); (38 # z)] ++ [(16 # h)]))).
  { exists [], rest. split; [|reflexivity]. unfold b, m, smsg. cbn [stano sta_bits]. rewrite (enc_split [(24 # hd); (12 # 1006)]), <- app_assoc, <- arp_split by assumption. reflexivity. }
  clearbody b. cbn [app] in A. assert (U 12 1006) by (unfold U; lia). rd1. cbn [Z.eqb Pos.eqb orb]. unfold decode_sta_pos. cbn [Z.eqb Pos.eqb orb bind]. rds. inn. rds. inn. rewrite E4. destruct s; reflexivity.
Qed.
Lemma sta_ok32 hd s rest np id itrf x y z : let m := S1032 np id itrf x y z in
  sta_ok m -> decode_sta s (smsg hd m rest) = Some (sta_after 0 m s, 180%nat).
Proof.
  intros m (? & ? & ? & ? & ?). unfold decode_sta. set (b := smsg hd m rest).
  assert (A : At b 0 (enc ([(24 # hd); (12 # 1032)] ++ [(12 # np); (12 # id); (6 # itrf); (38 # x); (38 # y); (38 # z)]))).
  { exists [], rest. split; [|reflexivity]. unfold b, m, smsg. cbn [stano sta_bits]. rewrite enc_split, <- app_assoc. reflexivity. }
  clearbody b. cbn [app] in A. assert (U 12 1032) by (unfold U; lia). rd1. cbn [Z.eqb Pos.eqb orb]. unfold decode_sta_pos. cbn [Z.eqb Pos.eqb orb bind]. inn. rds. destruct s; reflexivity.
Qed.

Lemma bitsof_at b o n v l : At b o (bitsof n v ++ l) -> U (Z.of_nat n) v -> getu b o n = Some v /\ At b (o + n) l.
Proof. intros A R. apply at_app in A as [A1 A2]. rewrite bitsof_length in A2. split; [now apply (at_u b o n v n)|exact A2]. Qed.
Ltac tx D T := apply rd_text in D; [|exact T]; let G := fresh "G" in let B := fresh "B" in destruct D as (G & B & D).
Lemma ant_head hd m rest id body : stano m = 1007 \/ stano m = 1008 \/ stano m = 1033 -> sta_bits m = bitsof 12 id ++ body -> U 12 id ->
  let b := smsg hd m rest in getu b 24 12 = Some (stano m) /\ getu b 36 12 = Some id /\ At b 48 (body ++ rest).
Proof.
  intros N E Hid b. assert (A : At b 0 (bitsof 24 hd ++ bitsof 12 (stano m) ++ bitsof 12 id ++ body ++ rest)).
  { exists [], []. split; [|reflexivity]. unfold b, smsg. rewrite E. unfold enc. cbn [flat_map fst snd]. rewrite app_nil_r, <- !app_assoc, app_nil_r. reflexivity. }
  apply at_app in A as [_ A]. rewrite bitsof_length in A. apply bitsof_at in A as [A1 A]; [|unfold U; change (2 ^ Z.of_nat 12) with 4096; lia].
  apply bitsof_at in A as [A2 A]; [|exact Hid]. split; [exact A1|]. split; [exact A2|exact A].
Qed.
Lemma sta_ok7 hd s rest id d a : let m := S1007 id d a in
  sta_ok m -> decode_sta s (smsg hd m rest) = Some (sta_after 0 m s, (36 + length (sta_bits m))%nat).
Proof.
  intros m (Hi & Td & Ha). destruct (ant_head hd m rest id (text_fields d ++ bitsof 8 a) ltac:(cbn; lia) eq_refl Hi) as (M & I & D).
  set (b := smsg hd m rest) in *. assert (L : length (sta_bits m) = (12 + 8 + 8 * length d + 8)%nat) by (unfold m, sta_bits, text_fields; rewrite !app_length, !bitsof_length, text_len; lia).
  rewrite L. clear L. clearbody b. rewrite <- !app_assoc in D. tx D Td. apply bitsof_at in D as [Ga D]; [|exact Ha].
  unfold decode_sta. rewrite M. cbn [bind stano m Z.eqb Pos.eqb orb]. unfold decode_ant_desc. cbn [Nat.add Z.eqb Pos.eqb orb] in *. rewrite I. cbn [bind]. rewrite G. cbn [bind]. rewrite Nat2Z.id.
  rewrite Ga. cbn [bind]. rewrite (B 7%nat eq_refl). destruct s. cbn. do 2 f_equal; lia.
Qed.
Lemma sta_ok8 hd s rest id d a sr : let m := S1008 id d a sr in
  sta_ok m -> decode_sta s (smsg hd m rest) = Some (sta_after 0 m s, (36 + length (sta_bits m))%nat).
Proof.
  intros m (Hi & Td & Ha & Ts). destruct (ant_head hd m rest id (text_fields d ++ bitsof 8 a ++ text_fields sr) ltac:(cbn; lia) eq_refl Hi) as (M & I & D).
  set (b := smsg hd m rest) in *. assert (L : length (sta_bits m) = (12 + 8 + 8 * length d + 8 + 8 + 8 * length sr)%nat) by (unfold m, sta_bits, text_fields; rewrite !app_length, !bitsof_length, !text_len; lia).
  rewrite L. clear L. clearbody b. rewrite <- !app_assoc in D. tx D Td. apply bitsof_at in D as [Ga D]; [|exact Ha]. tx D Ts.
  unfold decode_sta. rewrite M. cbn [bind stano m Z.eqb Pos.eqb orb]. unfold decode_ant_desc. cbn [Nat.add Z.eqb Pos.eqb orb] in *. rewrite I. cbn [bind]. rewrite G. cbn [bind]. rewrite Nat2Z.id.
  rewrite Ga. cbn [bind]. rewrite G0. cbn [bind]. rewrite Nat2Z.id, (B 7%nat eq_refl), B0 by lia. destruct s. cbn. do 2 f_equal; lia.
Qed.
Ltac rdt G := cbn [bind]; cbv beta iota zeta; match type of G with getu _ ?q _ = _ => match goal with |- context [bind (getu ?b ?p 8) _] => replace p with q by lia end end;
  rewrite G; cbn [bind]; cbv beta iota zeta; rewrite ?Nat2Z.id.
Lemma sta_ok33 hd s rest id d a sr rc fm rs : let m := S1033 id d a sr rc fm rs in
  sta_ok m -> decode_sta s (smsg hd m rest) = Some (sta_after 0 m s, (36 + length (sta_bits m))%nat).
Proof.
  intros m (Hi & Td & Ha & Ts & Tr & Tf & Tq).
  destruct (ant_head hd m rest id (text_fields d ++ bitsof 8 a ++ text_fields sr ++ text_fields rc ++ text_fields fm ++ text_fields rs) ltac:(cbn; lia) eq_refl Hi) as (M & I & D).
  set (b := smsg hd m rest) in *.
  assert (L : length (sta_bits m) = (12 + 8 + 8 * length d + 8 + 8 + 8 * length sr + 8 + 8 * length rc + 8 + 8 * length fm + 8 + 8 * length rs)%nat) by (unfold m, sta_bits, text_fields; rewrite !app_length, !bitsof_length, !text_len; lia).
  rewrite L. clear L. clearbody b. rewrite <- !app_assoc in D. tx D Td. apply bitsof_at in D as [Ga D]; [|exact Ha]. tx D Ts. tx D Tr. tx D Tf. tx D Tq.
  unfold decode_sta. rewrite M. cbn [bind stano m Z.eqb Pos.eqb orb]. unfold decode_ant_desc. cbn [Nat.add Z.eqb Pos.eqb orb] in *. rewrite I. cbn [bind]. rewrite G. cbn [bind]. rewrite Nat2Z.id.
  rdt Ga. rdt G0. rdt G1. rdt G2. rdt G3. rewrite (B 7%nat eq_refl), B0, B1, B2, B3 by lia. destruct s. cbn. do 2 f_equal; lia.
Qed.
Ltac gb := cbn [glo_biases Nat.add]; cbv beta zeta;
  match goal with |- context [if ?c then _ else _] => let r := eval vm_compute in c in change c with r; cbv iota | _ => idtac end;
  first [reflexivity | rd1; eapply bind_eq; [gb|cbv beta iota; reflexivity] | eapply bind_eq; [gb|cbv beta iota; reflexivity]].
Lemma sta_ok30 hd s rest id al a b c d : let m := S1230 id al a b c d in
  sta_ok m -> decode_sta s (smsg hd m rest) = Some (sta_after 0 m s, (36 + length (sta_bits m))%nat).
Proof.
  intros m (? & ? & Ha & Hb & Hc & Hd). unfold decode_sta. set (bb := smsg hd m rest).
  assert (A : At bb 0 (enc ([(24 # hd); (12 # 1230); (12 # id); (1 # al); (3 # 0)] ++ ((4 # 8 * have a + 4 * have b + 2 * have c + have d) :: opt16 a ++ opt16 b ++ opt16 c ++ opt16 d)))).
  { exists [], rest. split; [|reflexivity]. unfold bb, m, smsg. cbn [stano sta_bits].
    rewrite (enc_split [(24 # hd); (12 # 1230); (12 # id); (1 # al); (3 # 0)]), <- four by (unfold U; destruct a, b, c, d; cbn; lia).
    rewrite <- enc_split. cbn [app]. match goal with |- _ = enc (_ :: _ :: ?l) ++ _ => change (enc ((24 # hd) :: (12 # 1230) :: l)) with (enc ([(24 # hd); (12 # 1230)] ++ l)) end. rewrite (enc_split [(24 # hd); (12 # 1230)]), <- app_assoc. reflexivity. }
  clearbody bb. unfold opt_ok in *. assert (U 12 1230) by (unfold U; lia).
  assert (U 4 (8 * have a + 4 * have b + 2 * have c + have d)) by (unfold U; destruct a, b, c, d; cbn; lia).
  destruct a as [a|], b as [b|], c as [c|], d as [d|]; cbn [have opt16 app] in A; rd1; cbn [Z.eqb Pos.eqb orb]; unfold decode_glo_bias; rds;
    (eapply bind_eq; [gb|destruct s; reflexivity]).
Qed.
Lemma sta_all hd s m rest : sta_ok m -> decode_sta s (smsg hd m rest) = Some (sta_after 0 m s, (36 + length (sta_bits m))%nat).
Proof.
  destruct m; intros H.
  - rewrite sta_ok5 by exact H. reflexivity.
  - rewrite sta_ok6 by exact H. reflexivity.
  - rewrite sta_ok32 by exact H. reflexivity.
  - now apply sta_ok7.
  - now apply sta_ok8.
  - now apply sta_ok33.
  - now apply sta_ok30.
Qed.
