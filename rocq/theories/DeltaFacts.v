(** Facts about the delta protocol and recovery. *)
From Verif Require Import Base GoIO Lock Delta SpecFile SpecDelta GoIOFacts CodecFacts.

(** ** Encodings *)

Definition enc_header (h : dheader) : list byte :=
  be_enc 1 (dh_version h) ++ be_enc 1 (dh_locked h) ++ be_enc 4 (dh_count h).
Definition enc_entry (e : dentry) : list byte :=
  be_enc 1 (de_op e) ++ be_enc 8 (de_user e) ++ be_enc 8 (de_item e) ++ be_enc 1 (entry_checksum e).

Definition header_typed (h : dheader) : Prop :=
  is_byte (dh_version h) /\ is_byte (dh_locked h) /\ is_u32 (dh_count h).
Definition entry_typed (e : dentry) : Prop :=
  is_byte (de_op e) /\ is_u64 (de_user e) /\ is_u64 (de_item e) /\ is_byte (de_sum e).

Lemma enc_header_length h : length (enc_header h) = 6%nat.
Proof. unfold enc_header. by rewrite !app_length, !be_enc_length. Qed.
Lemma enc_entry_length e : length (enc_entry e) = 18%nat.
Proof. unfold enc_entry. by rewrite !app_length, !be_enc_length. Qed.
Lemma enc_entry_bytes e : Forall is_byte (enc_entry e).
Proof. unfold enc_entry. rewrite !Forall_app. repeat split; apply be_enc_bytes. Qed.

Lemma entry_checksum_byte e : is_byte (entry_checksum e).
Proof. apply u8_byte. Qed.

Lemma uint64_checksum_sum n : uint64_checksum n = u8 (sum_bytes (be_enc 8 n)).
Proof. unfold uint64_checksum. change 0 with (u8 0). by rewrite u8_fold. Qed.

Lemma entry_checksum_sum e :
  entry_checksum e = u8 (de_op e + sum_bytes (be_enc 8 (de_user e)) + sum_bytes (be_enc 8 (de_item e))).
Proof.
  unfold entry_checksum. rewrite !uint64_checksum_sum.
  rewrite u8_add_r, u8_add_l, <- Z.add_assoc, (Z.add_comm (u8 _)), Z.add_assoc, u8_add_r.
  f_equal. lia.
Qed.

Section emit.
  Context {W : Type} (wr : writer W) (ok : W -> Prop) (img : W -> file).
  Hypothesis L : lawfulw wr ok img.

  Lemma emits_prefix : emits ok img (d_write_prefix wr) delta_prefix tt.
  Proof. by apply emits_write_all. Qed.

  Lemma emits_header h : emits ok img (d_write_header wr h) (enc_header h) tt.
  Proof.
    unfold d_write_header, enc_header.
    eapply emits_bind; [by apply emits_write_uint|].
    eapply emits_bind; [by apply emits_write_uint|].
    by apply emits_write_uint.
  Qed.

  Lemma emits_entry e : emits ok img (d_write_entry wr e) (enc_entry e) tt.
  Proof.
    unfold d_write_entry, enc_entry.
    eapply emits_bind; [by apply emits_write_uint|].
    eapply emits_bind; [by apply emits_write_uint|].
    eapply emits_bind; [by apply emits_write_uint|].
    by apply emits_write_uint.
  Qed.
End emit.

Section follow.
  Context {R F : Type} (rd : reader R) (ok : R -> Prop) (rem : R -> list byte) (fr : R -> F).
  Hypothesis L : lawful_any rd ok rem fr.

  Lemma follows_prefix : follows ok rem fr (d_read_prefix rd) (d_read_prefix lread).
  Proof.
    apply follows_bind; [by apply follows_read_full|]. intros bs.
    destruct (bool_decide _); [apply follows_ret|apply follows_fail].
  Qed.

  Lemma follows_header : follows ok rem fr (d_read_header rd) (d_read_header lread).
  Proof. apply follows_bind; [by apply follows_read_full|]. intros bs. apply follows_ret. Qed.

  Lemma follows_entry : follows ok rem fr (d_read_entry rd) (d_read_entry lread).
  Proof.
    unfold d_read_entry.
    repeat (apply follows_bind; [by apply follows_read_uint|]; intros ?). apply follows_ret.
  Qed.
End follow.

(** ** Decoding from a byte list *)

Lemma delta_prefix_magic : delta_prefix = delta_magic.
Proof. reflexivity. Qed.

Lemma read_prefix_ok rest : d_read_prefix lread (delta_magic ++ rest) = (rest, Ret tt).
Proof.
  unfold d_read_prefix, iobind. rewrite read_full_app by done. cbn.
  by rewrite bool_decide_true.
Qed.

Lemma read_prefix_bad l : take 8 l <> delta_magic ->
  exists l' e, d_read_prefix lread l = (l', Err e).
Proof.
  intros H. unfold d_read_prefix, iobind. change (length delta_prefix) with 8%nat.
  rewrite read_full_list. destruct (decide (8 <= length l)%nat).
  - rewrite bool_decide_false by (intros E; apply H; by rewrite <- delta_prefix_magic).
    cbn. eauto.
  - destruct (decide _); eauto.
Qed.

Lemma read_header_app b0 b1 c rest : length c = 4%nat ->
  d_read_header lread (b0 :: b1 :: c ++ rest) = (rest, Ret (DHeader b0 b1 (be_dec c))).
Proof.
  intros Hc. unfold d_read_header, iobind. change (Z.to_nat delta_header_size) with 6%nat.
  change (b0 :: b1 :: c ++ rest) with ((b0 :: b1 :: c) ++ rest).
  rewrite read_full_app by (cbn; lia). unfold ioret.
  change (take 4 (drop 2 (b0 :: b1 :: c))) with (take 4 c).
  change (take 1 (b0 :: b1 :: c)) with [b0]. change (take 1 (drop 1 (b0 :: b1 :: c))) with [b1].
  rewrite !be_dec_1. rewrite take_ge by lia. done.
Qed.

Lemma read_header_short l : (length l < 6)%nat -> exists e, d_read_header lread l = ([], Err e).
Proof.
  intros. unfold d_read_header, iobind. change (Z.to_nat delta_header_size) with 6%nat.
  rewrite read_full_short by done. eauto.
Qed.

Lemma read_uint_app k a b : length a = k -> read_uint lread k (a ++ b) = (b, Ret (be_dec a)).
Proof. intros. unfold read_uint, iobind. by rewrite read_full_app. Qed.

Lemma read_uint_short k l : (length l < k)%nat -> exists e, read_uint lread k l = ([], Err e).
Proof. intros. unfold read_uint, iobind. rewrite read_full_short by done. eauto. Qed.

Lemma read_uint_cases k l :
  (k <= length l)%nat /\ read_uint lread k l = (drop k l, Ret (be_dec (take k l))) \/
  (length l < k)%nat /\ exists e, read_uint lread k l = ([], Err e).
Proof.
  destruct (decide (k <= length l)%nat) as [H | H].
  - left. split; [done|]. rewrite <- (take_drop k l) at 1. apply read_uint_app. rewrite take_length. lia.
  - right. split; [lia|]. apply read_uint_short. lia.
Qed.

Definition dec_entry (r : list byte) : dentry :=
  DEntry (be_dec (take 1 r)) (be_dec (take 8 (drop 1 r))) (be_dec (take 8 (drop 9 r)))
         (be_dec (take 1 (drop 17 r))).

Lemma read_entry_app r rest : length r = 18%nat ->
  d_read_entry lread (r ++ rest) = (rest, Ret (dec_entry r)).
Proof.
  intros Hr. unfold d_read_entry, iobind.
  assert (E : r = take 1 r ++ take 8 (drop 1 r) ++ take 8 (drop 9 r) ++ take 1 (drop 17 r)).
  { rewrite <- (take_drop 1 r) at 1. f_equal.
    rewrite <- (take_drop 8 (drop 1 r)) at 1. f_equal. rewrite drop_drop. cbn [Nat.add].
    rewrite <- (take_drop 8 (drop 9 r)) at 1. f_equal. rewrite drop_drop. cbn [Nat.add].
    symmetry. apply take_ge. rewrite drop_length. lia. }
  rewrite E at 1. rewrite <- !app_assoc.
  rewrite read_uint_app by (rewrite take_length; lia).
  rewrite read_uint_app by (rewrite take_length, drop_length; lia).
  rewrite read_uint_app by (rewrite take_length, drop_length; lia).
  rewrite read_uint_app by (rewrite take_length, drop_length; lia). done.
Qed.

Lemma read_entry_short l : (length l < 18)%nat -> exists l' e, d_read_entry lread l = (l', Err e).
Proof.
  intros Hl. unfold d_read_entry, iobind.
  destruct (read_uint_cases 1 l) as [[H ->] | (H & e & ->)]; [|eauto].
  destruct (read_uint_cases 8 (drop 1 l)) as [[H1 ->] | (H1 & e & ->)]; [|eauto].
  destruct (read_uint_cases 8 (drop 8 (drop 1 l))) as [[H2 ->] | (H2 & e & ->)]; [|eauto].
  destruct (read_uint_cases 1 (drop 8 (drop 8 (drop 1 l)))) as [[H3 ->] | (H3 & e & ->)]; [|eauto].
  rewrite !drop_length in *. lia.
Qed.

(** ** Entries and records *)

Lemma split_record (r : list byte) : length r = 18%nat ->
  exists op u i s, r = [op] ++ u ++ i ++ [s] /\ length u = 8%nat /\ length i = 8%nat.
Proof.
  intros Hr.
  destruct r as [|b0 [|b1 [|b2 [|b3 [|b4 [|b5 [|b6 [|b7 [|b8 [|b9 [|b10 [|b11 [|b12 [|b13 [|b14 [|b15 [|b16 [|b17 r]]]]]]]]]]]]]]]]]]; try done.
  destruct r; [|done].
  exists b0, [b1; b2; b3; b4; b5; b6; b7; b8], [b9; b10; b11; b12; b13; b14; b15; b16], b17. done.
Qed.

Lemma dec_entry_split op u i s : length u = 8%nat -> length i = 8%nat ->
  dec_entry ([op] ++ u ++ i ++ [s]) = DEntry op (be_dec u) (be_dec i) s.
Proof.
  intros Hu Hi. unfold dec_entry.
  assert (H1 : take 1 ([op] ++ u ++ i ++ [s]) = [op]) by done.
  assert (H2 : drop 1 ([op] ++ u ++ i ++ [s]) = u ++ i ++ [s]) by done.
  assert (H3 : drop 9 ([op] ++ u ++ i ++ [s]) = i ++ [s]).
  { rewrite app_assoc. apply drop_app_alt. rewrite app_length. cbn [length]. lia. }
  assert (H4 : drop 17 ([op] ++ u ++ i ++ [s]) = [s]).
  { rewrite !app_assoc. apply drop_app_alt. rewrite !app_length. cbn [length]. lia. }
  rewrite H1, H2, H3, H4. rewrite !take_app_alt by done. rewrite be_dec_1. done.
Qed.

Lemma pow256_8 : 256 ^ Z.of_nat 8 = 2 ^ 64.
Proof. reflexivity. Qed.
Lemma pow256_4 : 256 ^ Z.of_nat 4 = 2 ^ 32.
Proof. reflexivity. Qed.
Lemma pow256_1 : 256 ^ Z.of_nat 1 = 256.
Proof. reflexivity. Qed.

Lemma be_dec_u64 u : length u = 8%nat -> Forall is_byte u -> is_u64 (be_dec u).
Proof. intros Hl Hb. unfold is_u64. rewrite <- pow256_8, <- Hl. by apply be_dec_range. Qed.

(** A record whose bytes sum up is what WriteEntry writes for what ReadEntry reads. *)
Lemma enc_dec_record r : length r = 18%nat -> Forall is_byte r ->
  (entry_checksum (dec_entry r) =? de_sum (dec_entry r)) = bool_decide (valid_record r) /\
  (valid_record r -> enc_entry (dec_entry r) = r).
Proof.
  intros Hl Hb. destruct (split_record r Hl) as (op & u & i & s & -> & Hu & Hi).
  rewrite !Forall_app in Hb. destruct Hb as (Hop & Hbu & Hbi & Hs).
  apply (proj1 (Forall_singleton _ _)) in Hop, Hs.
  rewrite dec_entry_split by done.
  assert (Eu : be_enc 8 (be_dec u) = u) by (rewrite <- Hu; by apply be_enc_dec).
  assert (Ei : be_enc 8 (be_dec i) = i) by (rewrite <- Hi; by apply be_enc_dec).
  assert (Hc : entry_checksum (DEntry op (be_dec u) (be_dec i) s) = byte_sum ([op] ++ u ++ i)).
  { rewrite entry_checksum_sum. cbn [de_op de_user de_item].
    rewrite Eu, Ei.
    unfold byte_sum, u8. f_equal.
    change (fold_right Z.add 0 ([op] ++ u ++ i)) with (sum_bytes ([op] ++ u ++ i)).
    rewrite !sum_bytes_app. unfold sum_bytes at 3. cbn. lia. }
  assert (Hv : valid_record ([op] ++ u ++ i ++ [s]) <-> s = byte_sum ([op] ++ u ++ i)).
  { unfold valid_record. rewrite !app_assoc, last_snoc, <- !app_assoc.
    rewrite !app_assoc. rewrite take_app_alt by (rewrite !app_length; cbn; lia). 
    split; [congruence|by intros ->]. }
  split.
  - rewrite Hc. cbn [de_sum]. destruct (decide (valid_record ([op] ++ u ++ i ++ [s]))) as [H | H].
    + rewrite bool_decide_true by done. apply Hv in H. subst s. by rewrite Z.eqb_refl.
    + rewrite bool_decide_false by done. apply Z.eqb_neq. intros E. apply H, Hv. congruence.
  - intros H. apply Hv in H. unfold enc_entry. rewrite Hc. cbn [de_op de_user de_item].
    rewrite (be_enc_1 op) by done. f_equal.
    rewrite Eu, Ei. do 2 f_equal. rewrite <- H. by apply be_enc_1.
Qed.

Lemma delta_image_enc locked recs : delta_image locked recs =
  delta_magic ++ [1; locked] ++ be_enc 4 (Z.of_nat (length recs)) ++ concat recs.
Proof. reflexivity. Qed.

Lemma op_record_enc op u i : op_record op u i =
  let body := [op] ++ be_enc 8 u ++ be_enc 8 i in body ++ [byte_sum body].
Proof. reflexivity. Qed.

Lemma enc_entry_op_record e : is_byte (de_op e) ->
  enc_entry e = op_record (de_op e) (de_user e) (de_item e).
Proof.
  intros Hop. unfold enc_entry. rewrite op_record_enc. cbv zeta.
  rewrite be_enc_1 by done. rewrite <- !app_assoc. do 3 f_equal.
  rewrite be_enc_1 by apply entry_checksum_byte. f_equal.
  rewrite entry_checksum_sum. unfold byte_sum, u8. f_equal.
  change (fold_right Z.add 0 ?l) with (sum_bytes l). rewrite !sum_bytes_app.
  unfold sum_bytes at 3. cbn. lia.
Qed.

Lemma op_record_length op u i : length (op_record op u i) = 18%nat.
Proof. rewrite op_record_enc. cbv zeta. by rewrite !app_length, !be_enc_length. Qed.

Lemma op_record_valid op u i : valid_record (op_record op u i).
Proof.
  unfold valid_record. rewrite op_record_enc. cbv zeta. rewrite last_snoc.
  rewrite take_app_alt; [done|]. by rewrite !app_length, !be_enc_length.
Qed.

Lemma op_record_bytes op u i : is_byte op -> Forall is_byte (op_record op u i).
Proof.
  intros. rewrite op_record_enc. cbv zeta. rewrite !Forall_app. rewrite !Forall_singleton.
  split; [split; [done|split; apply be_enc_bytes]|].
  unfold byte_sum. unfold is_byte. apply Z.mod_pos_bound. lia.
Qed.

Lemma dec_op_record op u i : is_u64 u -> is_u64 i ->
  dec_entry (op_record op u i) = DEntry op u i (byte_sum ([op] ++ be_enc 8 u ++ be_enc 8 i)).
Proof.
  intros Hu Hi. rewrite op_record_enc. cbv zeta. rewrite <- !app_assoc.
  rewrite dec_entry_split by apply be_enc_length.
  by rewrite !be_dec_enc by (by rewrite pow256_8).
Qed.

(** ** Corruption *)

Lemma sum_bytes_insert (l : list byte) i x b : l !! i = Some x ->
  sum_bytes (<[i := b]> l) = sum_bytes l - x + b.
Proof.
  revert i. induction l as [|y l IH]; intros [|i] H; try done.
  - injection H as ->. cbn. lia.
  - specialize (IH i H). change (<[S i:=b]> (y :: l)) with (y :: <[i:=b]> l).
    unfold sum_bytes in *. cbn [fold_right]. rewrite IH. lia.
Qed.

Lemma corrupt_record (r : list byte) i x b : length r = 18%nat -> Forall is_byte r -> valid_record r ->
  r !! i = Some x -> is_byte b -> b <> x -> ~ valid_record (<[i := b]> r).
Proof.
  unfold valid_record. intros Hl Hb Hv Hx Hbb Hne Hv'.
  assert (Hi : (i < 18)%nat) by (apply lookup_lt_Some in Hx; lia).
  assert (Hxb : is_byte x) by (by apply (proj1 (Forall_lookup is_byte r) Hb i)).
  rewrite last_lookup in Hv, Hv'. rewrite insert_length, Hl in Hv'. rewrite Hl in Hv. cbn [pred] in *.
  destruct (decide (i = 17%nat)) as [-> | Hn].
  - rewrite list_lookup_insert in Hv' by lia. rewrite take_insert in Hv' by lia. congruence.
  - rewrite list_lookup_insert_ne in Hv' by done.
    assert (E : take 17 (<[i:=b]> r) = <[i := b]> (take 17 r)).
    { apply list_eq. intros j. destruct (decide (j < 17)%nat) as [Hj | Hj].
      - rewrite lookup_take by done. destruct (decide (i = j)) as [-> | ].
        + rewrite !list_lookup_insert; [done| rewrite ?take_length; lia..].
        + rewrite !list_lookup_insert_ne by done. by rewrite lookup_take.
      - rewrite lookup_take_ge by lia. symmetry. apply lookup_ge_None.
        rewrite insert_length, take_length. lia. }
    rewrite E in Hv'.
    assert (byte_sum (take 17 r) = byte_sum (<[i:=b]> (take 17 r))) as Es by congruence.
    unfold byte_sum in Es. change (fold_right Z.add 0) with sum_bytes in Es.
    rewrite (sum_bytes_insert _ i x) in Es by (rewrite lookup_take by lia; done).
    unfold is_byte in *.
    assert (exists k, b - x = 256 * k) as [k Hk]; [|lia].
    exists ((sum_bytes (take 17 r) - x + b) / 256 - sum_bytes (take 17 r) / 256).
    pose proof (Z.div_mod (sum_bytes (take 17 r)) 256). pose proof (Z.div_mod (sum_bytes (take 17 r) - x + b) 256). lia.
Qed.
