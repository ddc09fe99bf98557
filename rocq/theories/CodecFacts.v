(** Facts about the big-endian codecs of Base.v. *)
From Verif Require Import Base SpecFile.

Lemma be_enc_length k n : length (be_enc k n) = k.
Proof. induction k as [|k IH]; cbn; [done|]. by rewrite IH. Qed.

Lemma be_enc_bytes k n : Forall is_byte (be_enc k n).
Proof.
  induction k as [|k IH]; cbn; constructor; [|done].
  unfold is_byte. apply Z.mod_pos_bound. lia.
Qed.

Lemma pow256_pos k : 0 < 256 ^ Z.of_nat k.
Proof. apply Z.pow_pos_nonneg; lia. Qed.

Lemma pow256_S k : 256 ^ Z.of_nat (S k) = 256 * 256 ^ Z.of_nat k.
Proof. rewrite Nat2Z.inj_succ, Z.pow_succ_r; lia. Qed.

Lemma be_dec_acc bs : forall a, fold_left (fun acc b => acc * 256 + b) bs a =
  a * 256 ^ Z.of_nat (length bs) + be_dec bs.
Proof.
  unfold be_dec. induction bs as [|b bs IH]; intros a.
  - cbn. lia.
  - cbn [fold_left length]. rewrite IH, (IH (0 * 256 + b)), pow256_S. lia.
Qed.

Lemma be_dec_cons b bs : be_dec (b :: bs) = b * 256 ^ Z.of_nat (length bs) + be_dec bs.
Proof. unfold be_dec at 1. cbn [fold_left]. rewrite be_dec_acc. lia. Qed.

Lemma be_dec_enc_mod k n : be_dec (be_enc k n) = n mod 256 ^ Z.of_nat k.
Proof.
  induction k as [|k IH].
  - cbn. by rewrite Z.mod_1_r.
  - cbn [be_enc]. rewrite be_dec_cons, be_enc_length, IH, pow256_S.
    pose proof (pow256_pos k). set (p := 256 ^ Z.of_nat k) in *.
    rewrite (Z.mul_comm 256 p). rewrite Z.rem_mul_r by lia. lia.
Qed.

Lemma be_dec_enc k n : 0 <= n < 256 ^ Z.of_nat k -> be_dec (be_enc k n) = n.
Proof. intros. rewrite be_dec_enc_mod. by apply Z.mod_small. Qed.

Lemma be_dec_range bs : Forall is_byte bs -> 0 <= be_dec bs < 256 ^ Z.of_nat (length bs).
Proof.
  induction 1 as [|b bs Hb Hbs IH]; [cbn; lia|].
  rewrite be_dec_cons. cbn [length]. rewrite pow256_S. unfold is_byte in Hb. nia.
Qed.

Lemma be_enc_mod k n : be_enc k (n mod 256 ^ Z.of_nat k) = be_enc k n.
Proof.
  assert (H : forall j m, (j <= k)%nat -> m = n mod 256 ^ Z.of_nat k ->
    be_enc j m = be_enc j n); [|by apply H].
  induction j as [|j IH]; intros m Hj ->; [done|]. cbn [be_enc]. rewrite IH by (lia || done).
  f_equal.
  replace k with (S j + (k - S j))%nat by lia.
  rewrite Nat2Z.inj_add, Z.pow_add_r, pow256_S by lia.
  pose proof (pow256_pos j). pose proof (pow256_pos (k - S j)).
  set (p := 256 ^ Z.of_nat j) in *. set (q := 256 ^ Z.of_nat (k - S j)) in *.
  replace (256 * p * q) with (p * (256 * q)) by ring.
  rewrite Z.rem_mul_r by lia.
  rewrite (Z.mul_comm p), Z.div_add by lia.
  rewrite (Z.div_small (n mod p)) by (apply Z.mod_pos_bound; lia).
  rewrite Z.rem_mul_r by lia.
  rewrite Z.add_0_l, (Z.mul_comm 256), Z.mod_add by lia.
  by rewrite Z.mod_mod by lia.
Qed.

Lemma be_enc_dec bs : Forall is_byte bs -> be_enc (length bs) (be_dec bs) = bs.
Proof.
  induction 1 as [|b bs Hb Hbs IH]; [done|].
  cbn [length be_enc]. rewrite be_dec_cons.
  pose proof (be_dec_range bs Hbs). pose proof (pow256_pos (length bs)).
  f_equal.
  - rewrite Z.div_add_l by lia. rewrite Z.div_small by lia.
    rewrite Z.add_0_r. by apply Z.mod_small.
  - rewrite <- be_enc_mod. rewrite Z.add_comm, Z.mod_add by lia.
    rewrite Z.mod_small by lia. done.
Qed.

Lemma be_enc_1 n : is_byte n -> be_enc 1 n = [n].
Proof. unfold is_byte. intros. cbn. rewrite Z.div_1_r, Z.mod_small by lia. done. Qed.

Lemma be_dec_1 b : be_dec [b] = b.
Proof. unfold be_dec. cbn. lia. Qed.

Lemma be_enc_inj k n m : 0 <= n < 256 ^ Z.of_nat k -> 0 <= m < 256 ^ Z.of_nat k ->
  be_enc k n = be_enc k m -> n = m.
Proof. intros Hn Hm E. rewrite <- (be_dec_enc k n Hn), E. by apply be_dec_enc. Qed.

(** ** Byte sums *)
Definition sum_bytes (bs : list byte) : Z := fold_right Z.add 0 bs.

Lemma sum_bytes_app a b : sum_bytes (a ++ b) = sum_bytes a + sum_bytes b.
Proof. unfold sum_bytes. induction a as [|x a IH]; cbn; [done|]. rewrite IH. lia. Qed.

Lemma u8_fold bs : forall a, fold_left (fun sum b => u8 (sum + b)) bs (u8 a) = u8 (a + sum_bytes bs).
Proof.
  induction bs as [|b bs IH]; intros a; cbn [fold_left].
  - unfold sum_bytes. cbn. by rewrite Z.add_0_r.
  - assert (u8 (u8 a + b) = u8 (a + b)) as -> by (unfold u8; by rewrite Zplus_mod_idemp_l).
    rewrite IH. f_equal. unfold sum_bytes. cbn. lia.
Qed.

Lemma u8_byte n : is_byte (u8 n).
Proof. unfold is_byte, u8. apply Z.mod_pos_bound. lia. Qed.
Lemma u8_id n : is_byte n -> u8 n = n.
Proof. unfold is_byte, u8. apply Z.mod_small. Qed.
Lemma u8_add_l a b : u8 (u8 a + b) = u8 (a + b).
Proof. unfold u8. by rewrite Zplus_mod_idemp_l. Qed.
Lemma u8_add_r a b : u8 (a + u8 b) = u8 (a + b).
Proof. unfold u8. by rewrite Zplus_mod_idemp_r. Qed.
Lemma u32_id n : is_u32 n -> u32 n = n.
Proof. unfold is_u32, u32. apply Z.mod_small. Qed.
Lemma u32_range n : is_u32 (u32 n).
Proof. unfold is_u32, u32. apply Z.mod_pos_bound. lia. Qed.


Lemma be32_enc n : be32 n = be_enc 4 n.
Proof. reflexivity. Qed.
Lemma be64_enc n : be64 n = be_enc 8 n.
Proof. reflexivity. Qed.
