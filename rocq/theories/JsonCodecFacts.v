(** Proofs about the strings, numbers and objects of JSON texts. *)
From Coq Require Import Reals Lra.
From Flocq Require Import Core.Core IEEE754.BinarySingleNaN Round_odd.
From Verif Require Import Base Similarity SimilarityFacts Json SpecJson JsonFacts JsonCodec SpecJsonText.
#[local] Open Scope Z_scope.

(** ** UTF-8 *)

Lemma utf8_cases c : scalar c ->
  (0 <= c < 128 /\ utf8 c = [c]) \/
  (exists a b, 2 <= a < 32 /\ 0 <= b < 64 /\ c = a * 64 + b /\ utf8 c = [192 + a; 128 + b]) \/
  (exists a b d, 0 <= a < 16 /\ 0 <= b < 64 /\ 0 <= d < 64 /\ (a = 0 -> 32 <= b) /\
     (a = 13 -> b < 32) /\ c = a * 4096 + b * 64 + d /\ utf8 c = [224 + a; 128 + b; 128 + d]) \/
  (exists a b d e, 0 <= a < 5 /\ 0 <= b < 64 /\ 0 <= d < 64 /\ 0 <= e < 64 /\ (a = 0 -> 16 <= b) /\
     (a = 4 -> b < 16) /\ c = a * 262144 + b * 4096 + d * 64 + e /\
     utf8 c = [240 + a; 128 + b; 128 + d; 128 + e]).
Proof.
  intros H. unfold utf8, scalar in *.
  destruct (Z.ltb_spec c 128); [left; split; [lia|done]|]. right.
  destruct (Z.ltb_spec c 2048).
  { left. exists (c / 64), (c mod 64).
    pose proof (Z.div_mod c 64 ltac:(lia)). pose proof (Z.mod_pos_bound c 64 ltac:(lia)).
    repeat split; lia. }
  right. destruct (Z.ltb_spec c 65536).
  { left. exists (c / 4096), (c / 64 mod 64), (c mod 64).
    pose proof (Z.div_mod c 64 ltac:(lia)). pose proof (Z.mod_pos_bound c 64 ltac:(lia)).
    pose proof (Z.div_mod (c / 64) 64 ltac:(lia)). pose proof (Z.mod_pos_bound (c / 64) 64 ltac:(lia)).
    assert (E : c / 4096 = c / 64 / 64) by (rewrite Z.div_div by lia; done). rewrite E.
    repeat split; lia. }
  right. exists (c / 262144), (c / 4096 mod 64), (c / 64 mod 64), (c mod 64).
  pose proof (Z.div_mod c 64 ltac:(lia)). pose proof (Z.mod_pos_bound c 64 ltac:(lia)).
  pose proof (Z.div_mod (c / 64) 64 ltac:(lia)). pose proof (Z.mod_pos_bound (c / 64) 64 ltac:(lia)).
  pose proof (Z.div_mod (c / 64 / 64) 64 ltac:(lia)).
  pose proof (Z.mod_pos_bound (c / 64 / 64) 64 ltac:(lia)).
  assert (E : c / 4096 = c / 64 / 64) by (rewrite Z.div_div by lia; done).
  assert (E' : c / 262144 = c / 64 / 64 / 64) by (rewrite !Z.div_div by lia; done).
  rewrite E', E. repeat split; lia.
Qed.

Lemma ltb_t a b : a < b -> (a <? b) = true. Proof. apply Z.ltb_lt. Qed.
Lemma ltb_f a b : b <= a -> (a <? b) = false. Proof. apply Z.ltb_ge. Qed.
Lemma leb_t a b : a <= b -> (a <=? b) = true. Proof. apply Z.leb_le. Qed.
Lemma leb_f a b : b < a -> (a <=? b) = false. Proof. apply Z.leb_gt. Qed.
Lemma eqb_f a b : a <> b -> (a =? b) = false. Proof. apply Z.eqb_neq. Qed.
Ltac bools := repeat first
  [ rewrite ltb_t by lia | rewrite ltb_f by lia | rewrite leb_t by lia | rewrite leb_f by lia
  | rewrite eqb_f by lia | rewrite Z.eqb_refl ]; cbn [andb orb negb].

Lemma decode_utf8 c s : scalar c -> decode_rune (utf8 c ++ s) = (c, length (utf8 c)).
Proof.
  intros H. destruct (utf8_cases c H) as
    [[Hc ->]|[(a & b & Ha & Hb & Ec & ->)|[(a & b & d & Ha & Hb & Hd & H0 & H13 & Ec & ->)|
              (a & b & d & e & Ha & Hb & Hd & He & H0 & H4 & Ec & ->)]]]; cbn [app decode_rune length].
  - bools. done.
  - unfold cont. bools. f_equal. lia.
  - unfold cont. bools.
    destruct (Z.eqb_spec (224 + a) 224), (Z.eqb_spec (224 + a) 237); bools; f_equal; lia.
  - unfold cont. bools.
    destruct (Z.eqb_spec (240 + a) 240), (Z.eqb_spec (240 + a) 244); bools; f_equal; lia.
Qed.

Lemma land63 x : Z.land x 63 = x mod 64.
Proof. change 63 with (Z.ones 6). by rewrite Z.land_ones by lia. Qed.
Lemma land15 x : Z.land x 15 = x mod 16.
Proof. change 15 with (Z.ones 4). by rewrite Z.land_ones by lia. Qed.

Lemma encode_utf8 c : scalar c -> encode_rune c = utf8 c.
Proof.
  intros H. unfold encode_rune, utf8, is_surrogate. unfold scalar in H.
  assert (E : ((55296 <=? c) && (c <? 57344) || (c <? 0) || (1114111 <? c)) = false).
  { destruct H; bools; done. }
  rewrite E. cbv zeta. rewrite !land63, !Z.shiftr_div_pow2 by lia.
  destruct (Z.ltb_spec c 128); bools; [done|]. destruct (Z.ltb_spec c 2048); bools; [done|].
  destruct (Z.ltb_spec c 65536); bools; done.
Qed.

Lemma utf8_nonempty c : scalar c -> exists b r, utf8 c = b :: r /\ (128 <= c -> Forall (fun x => 128 <= x) (b :: r)) /\ (128 <= c <-> 128 <= b).
Proof.
  intros H. destruct (utf8_cases c H) as
    [[Hc ->]|[(a & b & Ha & Hb & Ec & ->)|[(a & b & d & Ha & Hb & Hd & H0 & H13 & Ec & ->)|
              (a & b & d & e & Ha & Hb & Hd & He & H0 & H4 & Ec & ->)]]]; eexists _, _; (split; [reflexivity|]);
    (split; [intros; repeat constructor; lia|lia]).
Qed.

(** Bytes of a rune that is not an error are all of a string. *)
Lemma decode_rune_high c0 s c n :
  128 <= c0 -> decode_rune (c0 :: s) = (c, n) ->
  (n = 1%nat /\ c = rune_error) \/
  ((1 < n <= S (length s))%nat /\ Forall (fun x => 128 <= x) (take n (c0 :: s))).
Proof.
  intros H0. cbn [decode_rune]. rewrite ltb_f by lia. unfold cont.
  destruct (_ && (c0 <=? 223)).
  { destruct s as [|c1 s]; [intros [= <- <-]; by left|].
    destruct (_ && _) eqn:E; intros [= <- <-]; [right|by left].
    split; [cbn; lia|]. cbn. repeat constructor; lia. }
  destruct (_ && (c0 <=? 239)).
  { destruct s as [|c1 [|c2 s]]; [intros [= <- <-]; by left..|].
    destruct (_ && _ && _) eqn:E; intros [= <- <-]; [right|by left].
    split; [cbn; lia|]. cbn. destruct (c0 =? 224), (c0 =? 237); repeat constructor; lia. }
  destruct (_ && (c0 <=? 244)); [|intros [= <- <-]; by left].
  destruct s as [|c1 [|c2 [|c3 s]]]; [intros [= <- <-]; by left..|].
  destruct (_ && _ && _ && _) eqn:E; intros [= <- <-]; [right|by left].
  split; [cbn; lia|]. cbn. destruct (c0 =? 240), (c0 =? 244); repeat constructor; lia.
Qed.

(** ** Strings *)

Lemma high_chars l s : Forall (fun x => 128 <= x) l -> chars s -> chars (l ++ s).
Proof.
  induction 1 as [|x l Hx Hl IH]; intros Hs; [done|]. cbn. apply chars_plain; [lia..|by apply IH].
Qed.

Lemma hex_value_hex b v : hex_value b v -> hex b.
Proof. unfold hex, dec. intros []; lia. Qed.
Lemma hex_val_spec b v : hex_val b = Some v <-> hex_value b v.
Proof.
  unfold hex_val. split.
  - destruct (_ && (b <=? 57)) eqn:E1; [intros [= <-]; apply hex_dec; lia|].
    destruct (_ && (b <=? 102)) eqn:E2; [intros [= <-]; apply hex_lower; lia|].
    destruct (_ && (b <=? 70)) eqn:E3; [intros [= <-]; apply hex_upper; lia|]. done.
  - intros []; bools; done.
Qed.
Lemma hex_value_range b v : hex_value b v -> 0 <= v < 16.
Proof. intros []; lia. Qed.
Lemma hex_digit_value v : 0 <= v < 16 -> hex_value (hex_digit v) v.
Proof.
  intros H. unfold hex_digit. destruct (Z.ltb_spec v 10).
  - replace v with (48 + v - 48) at 2 by lia. apply hex_dec. lia.
  - replace v with (87 + v - 87) at 2 by lia. apply hex_lower. lia.
Qed.

Lemma means_chars s cs : means s cs -> chars s.
Proof.
  induction 1 as [|c s cs Hc H1 H2 H3 _ IH|d c s cs He _ IH|h c s cs Hh Hc _ IH|h1 v1 h2 v2 s cs Hh1 Hh2 Hv1 Hv2 _ IH].
  - constructor.
  - destruct (utf8_nonempty c Hc) as (b & r & E & F & _). destruct (decide (c < 128)) as [L|L].
    + destruct (utf8_cases c Hc) as [[? ->]|[(a & b' & ? & ? & ? & ->)|[(a & b' & d & ? & ? & ? & ? & ? & ? & ->)|
              (a & b' & d & e & ? & ? & ? & ? & ? & ? & ? & ->)]]]; [|lia..].
      by apply chars_plain.
    + rewrite E. apply high_chars; [|done]. apply F. lia.
  - apply chars_escape; [|done]. destruct He; set_solver.
  - destruct Hh as (h1 & h2 & h3 & h4 & v1 & v2 & v3 & v4 & -> & E1 & E2 & E3 & E4 & _). cbn.
    apply chars_unicode; [by eapply hex_value_hex..|done].
  - destruct Hh1 as (a1 & a2 & a3 & a4 & ? & ? & ? & ? & -> & E1 & E2 & E3 & E4 & _).
    destruct Hh2 as (b1 & b2 & b3 & b4 & ? & ? & ? & ? & -> & F1 & F2 & F3 & F4 & _). cbn.
    apply chars_unicode; [by eapply hex_value_hex..|]. apply chars_unicode; [by eapply hex_value_hex..|done].
Qed.

(** *** quote *)

Lemma html_safe_spec b : html_safe b = true -> 32 <= b /\ b <> 34 /\ b <> 92.
Proof.
  unfold html_safe. cbn [existsb]. intros H. apply andb_true_iff in H as [H1 H2].
  apply negb_true_iff in H2. rewrite !orb_false_iff in H2. lia.
Qed.

Lemma quote_chars fuel : forall s, Forall (fun b => 0 <= b) s -> chars (quote fuel s).
Proof.
  induction fuel as [|fuel IH]; intros s Hs; cbn [quote]; [constructor|].
  destruct s as [|b s]; [constructor|]. pose proof Hs as [Hb Hs']%Forall_cons.
  destruct (Z.ltb_spec b 128) as [L|L].
  - specialize (IH s Hs'). destruct (html_safe b) eqn:E1.
    { apply html_safe_spec in E1. cbn. apply chars_plain; [lia..|done]. }
    destruct (_ || (b =? 34)) eqn:E2.
    { cbn. apply chars_escape; [|done]. rewrite !elem_of_cons. lia. }
    destruct (Z.eqb_spec b 10); [cbn; apply chars_escape; [set_solver|done]|].
    destruct (Z.eqb_spec b 13); [cbn; apply chars_escape; [set_solver|done]|].
    destruct (Z.eqb_spec b 9); [cbn; apply chars_escape; [set_solver|done]|].
    cbn. rewrite land15, Z.shiftr_div_pow2 by lia. change (2 ^ 4) with 16.
    apply chars_unicode; [unfold hex, dec; lia..| | |done].
    + eapply hex_value_hex, hex_digit_value. pose proof (Z.div_mod b 16 ltac:(lia)).
      pose proof (Z.mod_pos_bound b 16 ltac:(lia)). lia.
    + eapply hex_value_hex, hex_digit_value, Z.mod_pos_bound. lia.
  - destruct (decode_rune (b :: s)) as [c n] eqn:D.
    assert (R : chars (quote fuel (drop n (b :: s)))) by (apply IH; by apply Forall_drop).
    destruct (_ && (n =? 1)%nat) eqn:E1.
    { cbn. apply chars_unicode; [unfold hex, dec; lia..|done]. }
    destruct (_ || (c =? 8233)) eqn:E2.
    { cbn. apply chars_unicode; [unfold hex, dec; lia..| |done].
      eapply hex_value_hex, hex_digit_value. rewrite land15. apply Z.mod_pos_bound. lia. }
    apply high_chars; [|done]. destruct (decode_rune_high b s c n L D) as [[-> ->]|[_ H]]; [done|done].
Qed.

Lemma quote_means cs : Forall scalar cs -> forall fuel, (length (utf8_text cs) <= fuel)%nat ->
  means (quote fuel (utf8_text cs)) cs.
Proof.
  induction 1 as [|c cs Hc Hcs IH]; intros fuel Hf.
  { cbn. destruct fuel; constructor. }
  unfold utf8_text in *. cbn [map concat] in *. fold (utf8_text cs) in *. rewrite app_length in Hf.
  destruct (utf8_nonempty c Hc) as (b & r & E & F & Hb). rewrite E in Hf. cbn in Hf.
  destruct fuel as [|fuel]; [lia|]. destruct (decide (c < 128)) as [L|L].
  - assert (E' : utf8 c = [c]).
    { destruct (utf8_cases c Hc) as [[? ->]|[(? & ? & ? & ? & ? & _)|[(? & ? & ? & ? & ? & ? & ? & ? & ? & _)|
              (? & ? & ? & ? & ? & ? & ? & ? & ? & ? & ? & _)]]]; [done|lia..]. }
    rewrite E' in E |- *. injection E as -> <-. cbn [app]. cbn [quote]. rewrite ltb_t by lia.
    specialize (IH fuel ltac:(lia)). assert (0 <= b) by (unfold scalar in Hc; lia).
    destruct (html_safe b) eqn:E1.
    { apply html_safe_spec in E1. rewrite <- E'. apply means_plain; [done|lia..|done]. }
    destruct (_ || (b =? 34)) eqn:E2.
    { cbn [app]. apply means_escape; [|done].
      assert (b = 92 \/ b = 34) as [-> | ->] by lia; constructor. }
    destruct (Z.eqb_spec b 10) as [->|]; [cbn; apply means_escape; [constructor|done]|].
    destruct (Z.eqb_spec b 13) as [->|]; [cbn; apply means_escape; [constructor|done]|].
    destruct (Z.eqb_spec b 9) as [->|]; [cbn; apply means_escape; [constructor|done]|].
    rewrite land15, Z.shiftr_div_pow2 by lia. change (2 ^ 4) with 16.
    pose proof (Z.div_mod b 16 ltac:(lia)). pose proof (Z.mod_pos_bound b 16 ltac:(lia)).
    apply (means_unicode [48; 48; hex_digit (b / 16); hex_digit (b mod 16)]); [|done|done].
    exists 48, 48, (hex_digit (b / 16)), (hex_digit (b mod 16)), 0, 0, (b / 16), (b mod 16).
    split; [done|]. split; [by apply (hex_dec 48)|]. split; [by apply (hex_dec 48)|].
    split; [apply hex_digit_value; lia|]. split; [apply hex_digit_value; lia|]. lia.
  - specialize (F ltac:(lia)). assert (Hb' : 128 <= b) by lia.
    assert (Q : quote (S fuel) (utf8 c ++ utf8_text cs) =
      (if (c =? rune_error) && (length (utf8 c) =? 1)%nat then [92; 117; 102; 102; 102; 100]
       else if (c =? 8232) || (c =? 8233) then [92; 117; 50; 48; 50; hex_digit (Z.land c 15)]
       else utf8 c) ++ quote fuel (utf8_text cs)).
    { pose proof (decode_utf8 c (utf8_text cs) Hc) as D. rewrite E in D |- *. cbn [app] in *. cbn [quote].
      rewrite ltb_f by lia. rewrite D. cbn [length]. rewrite firstn_cons, skipn_cons, take_app, drop_app. done. }
    rewrite Q. specialize (IH fuel ltac:(lia)).
    destruct (_ && (_ =? 1)%nat) eqn:E1.
    { exfalso. apply andb_true_iff in E1 as [E1 E2]. apply Z.eqb_eq in E1. subst c. done. }
    destruct (_ || (c =? 8233)) eqn:E2; [|apply means_plain; [done|lia..|done]].
    rewrite land15.
    apply (means_unicode [50; 48; 50; hex_digit (c mod 16)]); [|done|done].
    exists 50, 48, 50, (hex_digit (c mod 16)), 2, 0, 2, (c mod 16).
    split; [done|]. split; [by apply (hex_dec 50)|]. split; [by apply (hex_dec 48)|].
    split; [by apply (hex_dec 50)|]. split; [apply hex_digit_value, Z.mod_pos_bound; lia|].
    assert (c = 8232 \/ c = 8233) as [-> | ->] by lia; reflexivity.
Qed.

Lemma quote_string_means cs : Forall scalar cs -> means (quote_string (utf8_text cs)) cs.
Proof. intros H. by apply quote_means. Qed.
Lemma quote_string_chars s : Forall (fun b => 0 <= b) s -> chars (quote_string s).
Proof. apply quote_chars. Qed.

(** *** unquote *)

Lemma getu4_hex4 h v s : hex4_value h v -> getu4 (92 :: 117 :: h ++ s) = v /\ 0 <= v < 65536 /\ length h = 4%nat.
Proof.
  intros (h1 & h2 & h3 & h4 & v1 & v2 & v3 & v4 & -> & H1 & H2 & H3 & H4 & ->). cbn [app getu4].
  pose proof (hex_value_range _ _ H1). pose proof (hex_value_range _ _ H2).
  pose proof (hex_value_range _ _ H3). pose proof (hex_value_range _ _ H4).
  apply hex_val_spec in H1, H2, H3, H4. rewrite H1, H2, H3, H4. split; [lia|]. split; [lia|done].
Qed.

Lemma unquote_means s cs : means s cs -> forall fuel, (length s < fuel)%nat ->
  unquote fuel s = Some (utf8_text cs).
Proof.
  induction 1 as [|c s cs Hc H1 H2 H3 _ IH|d c s cs He _ IH|h c s cs Hh Hc _ IH|h1 v1 h2 v2 s cs Hh1 Hh2 Hv1 Hv2 _ IH];
    intros fuel Hf.
  - destruct fuel; [cbn in Hf; lia|done].
  - unfold utf8_text. cbn [map concat]. fold (utf8_text cs). rewrite app_length in Hf.
    destruct (utf8_nonempty c Hc) as (b & r & E & F & Hb). rewrite E in Hf. cbn in Hf.
    destruct fuel as [|fuel]; [lia|]. specialize (IH fuel ltac:(lia)).
    pose proof (decode_utf8 c s Hc) as D. destruct (decide (c < 128)) as [L|L].
    + assert (E' : utf8 c = [c]).
      { destruct (utf8_cases c Hc) as [[? ->]|[(? & ? & ? & ? & ? & _)|[(? & ? & ? & ? & ? & ? & ? & ? & ? & _)|
              (? & ? & ? & ? & ? & ? & ? & ? & ? & ? & ? & _)]]]; [done|lia..]. }
      rewrite E'. cbn [app unquote]. bools. by rewrite IH.
    + specialize (F ltac:(lia)). rewrite E in D |- *. cbn [app] in *. cbn [unquote].
      rewrite (eqb_f b 92), (eqb_f b 34), (ltb_f b 32), (ltb_f b 128) by lia. cbn [orb].
      rewrite D. cbn [length]. rewrite skipn_cons, drop_app, IH. rewrite encode_utf8, E by done. done.
  - cbn in Hf. destruct fuel as [|fuel]; [lia|]. specialize (IH fuel ltac:(lia)).
    unfold utf8_text. cbn [map concat]. fold (utf8_text cs).
    destruct He; cbn; rewrite IH; done.
  - destruct (getu4_hex4 h c s Hh) as (G & R & Lh). cbn in Hf. rewrite app_length in Hf.
    destruct fuel as [|fuel]; [lia|]. specialize (IH fuel ltac:(lia)).
    cbn [unquote]. rewrite !Z.eqb_refl. rewrite G. rewrite ltb_f by lia. cbv zeta.
    assert (S : is_surrogate c = false).
    { unfold is_surrogate. unfold scalar in Hc. destruct Hc; bools; done. }
    rewrite S. change (drop 6 (92 :: 117 :: h ++ s)) with (drop 4 (h ++ s)).
    rewrite <- Lh, drop_app, IH. by rewrite encode_utf8.
  - destruct (getu4_hex4 h1 v1 (92 :: 117 :: h2 ++ s) Hh1) as (G1 & R1 & L1).
    destruct (getu4_hex4 h2 v2 s Hh2) as (G2 & R2 & L2).
    cbn in Hf. rewrite app_length in Hf. cbn in Hf. rewrite app_length in Hf.
    destruct fuel as [|fuel]; [lia|]. specialize (IH fuel ltac:(lia)).
    cbn [unquote]. rewrite !Z.eqb_refl. rewrite G1. rewrite ltb_f by lia. cbv zeta.
    assert (S : is_surrogate v1 = true) by (unfold is_surrogate; bools; done). rewrite S.
    change (drop 6 (92 :: 117 :: h1 ++ 92 :: 117 :: h2 ++ s)) with (drop 4 (h1 ++ 92 :: 117 :: h2 ++ s)).
    assert (D1 : drop 4 (h1 ++ 92 :: 117 :: h2 ++ s) = 92 :: 117 :: h2 ++ s) by (rewrite <- L1; apply drop_app).
    rewrite D1. rewrite G2. unfold utf16_decode. bools.
    rewrite eqb_f by (unfold rune_error; lia).
    change (drop 6 (92 :: 117 :: h2 ++ s)) with (drop 4 (h2 ++ s)). rewrite <- L2, drop_app, IH.
    rewrite encode_utf8 by (unfold scalar; lia). unfold utf8_text. cbn [map concat fmap option_fmap option_map].
    do 3 f_equal. lia.
Qed.

Lemma unquote_string_means s cs : means s cs -> unquote_string s = Some (utf8_text cs).
Proof. intros H. apply unquote_means; [done|lia]. Qed.

(** ** Numbers *)

Lemma read_decimal_value ds : forall acc,
  read_digits ds acc = acc * 10 ^ Z.of_nat (length ds) + decimal_value ds.
Proof.
  unfold read_digits. induction ds as [|d ds IH]; intros acc; cbn [fold_left length decimal_value].
  - cbn. lia.
  - rewrite IH. rewrite Nat2Z.inj_succ, Z.pow_succ_r by lia. lia.
Qed.

Lemma decimal_value_app a b :
  decimal_value (a ++ b) = decimal_value a * 10 ^ Z.of_nat (length b) + decimal_value b.
Proof.
  induction a as [|x a IH]; cbn [app decimal_value]; [lia|].
  rewrite IH, app_length, Nat2Z.inj_add, Z.pow_add_r by lia. lia.
Qed.

Lemma decimal_value_nonneg ds : Forall dec ds -> 0 <= decimal_value ds.
Proof.
  induction 1 as [|d ds Hd _ IH]; cbn; [done|]. unfold dec in Hd.
  pose proof (Z.pow_nonneg 10 (Z.of_nat (length ds)) ltac:(lia)). nia.
Qed.

Lemma span_digits_app ds r : Forall dec ds -> no_digit r -> span_digits (ds ++ r) = (ds, r).
Proof.
  intros H Hr. induction H as [|d ds Hd _ IH].
  - destruct r as [|c r]; [done|]. cbn. cbn in Hr. by rewrite Hr.
  - cbn. apply is_digit_spec in Hd. by rewrite Hd, IH.
Qed.

Lemma int_part_digits i : int_part i -> Forall dec i /\ exists c r, i = c :: r.
Proof.
  intros [->|(c & ds & -> & Hc & H)].
  - split; [repeat constructor; unfold dec; lia|]. by eexists _, _.
  - split; [constructor; [unfold dec; lia|done]|]. by eexists _, _.
Qed.

(** *** ParseUint *)

Lemma parse_uint_digits ds : decs ds -> decimal_value ds < 2 ^ 64 -> parse_uint ds = Some (decimal_value ds).
Proof.
  intros [Hne H] Hlt. unfold parse_uint. rewrite <- (app_nil_r ds) at 1.
  rewrite span_digits_app by done. destruct ds as [|d ds]; [done|].
  rewrite read_decimal_value, Z.mul_0_l, Z.add_0_l. by rewrite ltb_t.
Qed.

Lemma parse_uint_sound s n : parse_uint s = Some n ->
  decs s /\ n = decimal_value s /\ 0 <= n < 2 ^ 64.
Proof.
  unfold parse_uint.
  assert (H : forall s, exists ds r, span_digits s = (ds, r) /\ s = ds ++ r /\ Forall dec ds).
  { clear. induction s as [|c s IH]; [by exists [], []|]. cbn. destruct (is_digit c) eqn:E.
    - destruct IH as (ds & r & -> & -> & F). exists (c :: ds), r. split; [done|]. split; [done|].
      constructor; [by apply is_digit_spec|done].
    - by exists [], (c :: s). }
  destruct (H s) as (ds & r & -> & -> & F). destruct ds as [|d ds]; [done|]. destruct r; [|done].
  rewrite read_decimal_value, Z.mul_0_l, Z.add_0_l, app_nil_r.
  destruct (Z.ltb_spec (decimal_value (d :: ds)) (2 ^ 64)) as [L|]; [|done]. intros [= <-].
  split; [by split|]. split; [done|]. split; [exact (decimal_value_nonneg _ F)|done].
Qed.

(** *** AppendUint *)

Lemma uint_digits_spec fuel : forall n, 0 <= n < 2 ^ Z.of_nat (S fuel) ->
  let ds := uint_digits (S fuel) n in
  Forall dec ds /\ decimal_value ds = n /\ ((n = 0 /\ ds = [48]) \/ exists c r, ds = c :: r /\ 49 <= c <= 57).
Proof.
  induction fuel as [|fuel IH]; intros n Hn; cbv zeta.
  - change (2 ^ Z.of_nat 1) with 2 in Hn. cbn [uint_digits]. rewrite ltb_t by lia.
    split; [constructor; [unfold dec; lia|constructor]|]. split; [cbn; lia|].
    destruct (decide (n = 0)) as [->|]; [by left|]. right. eexists _, _. split; [reflexivity|lia].
  - cbn [uint_digits]. destruct (Z.ltb_spec n 10) as [L|L].
    + split; [constructor; [unfold dec; lia|constructor]|]. split; [cbn; lia|].
      destruct (decide (n = 0)) as [->|]; [by left|]. right. eexists _, _. split; [reflexivity|lia].
    + rewrite Nat2Z.inj_succ, Z.pow_succ_r in Hn by lia.
      pose proof (Z.div_mod n 10 ltac:(lia)). pose proof (Z.mod_pos_bound n 10 ltac:(lia)).
      specialize (IH (n / 10) ltac:(lia)). cbv zeta in IH.
      change (uint_digits (S fuel) (n / 10)) with
        (if n / 10 <? 10 then [48 + n / 10] else uint_digits fuel (n / 10 / 10) ++ [48 + (n / 10) mod 10]) in IH.
      destruct IH as (F & V & [[Hz _]|(c & r & E & Hc)]); [lia|].
      split; [apply Forall_app; split; [done|repeat constructor; unfold dec; lia]|]. split.
      * rewrite decimal_value_app, V. cbn. lia.
      * right. rewrite E. by eexists _, _.
Qed.

Lemma format_uint_spec n : 0 <= n -> int_part (format_uint n) /\ decimal_value (format_uint n) = n.
Proof.
  intros H. destruct (uint_digits_spec (Z.to_nat (Z.log2 n)) n) as (F & V & C).
  { split; [done|]. destruct (decide (n = 0)) as [->|]; [done|].
    rewrite Nat2Z.inj_succ, Z2Nat.id by apply Z.log2_nonneg. apply Z.log2_spec. lia. }
  split; [|done]. fold (format_uint n) in *. destruct C as [[_ E]|(c & r & E & Hc)]; [by left|].
  right. exists c, r. rewrite E in F. apply Forall_cons in F as [_ F]. by split.
Qed.

Lemma format_uint_number n : 0 <= n -> number (format_uint n).
Proof.
  intros H. destruct (format_uint_spec n H) as [F _]. exists [], (format_uint n), [], [].
  split; [by left|]. split; [done|]. split; [by left|]. split; [by left|]. by rewrite !app_nil_r.
Qed.

Lemma parse_format_uint n : 0 <= n < 2 ^ 64 -> parse_uint (format_uint n) = Some n.
Proof.
  intros H. destruct (format_uint_spec n ltac:(lia)) as [F V].
  rewrite parse_uint_digits; [by rewrite V| |rewrite V; lia].
  destruct (int_part_digits _ F) as (G & c & r & E). split; [by rewrite E|done].
Qed.

(** *** ParseFloat *)

Lemma exp_no_digits e ev : exp_value e ev -> no_digit e.
Proof.
  intros [|e' ds He _|e' ds He _|e' ds He _] c s; intros [=]; subst; destruct He; subst; done.
Qed.

Lemma read_exp e ev : exp_value e ev ->
  match e with
  | _ :: 45 :: s' => - read_digits (fst (span_digits s')) 0
  | _ :: 43 :: s' => read_digits (fst (span_digits s')) 0
  | _ :: s' => read_digits (fst (span_digits s')) 0
  | [] => 0
  end = ev.
Proof.
  assert (R : forall ds, decs ds -> read_digits (fst (span_digits ds)) 0 = decimal_value ds).
  { intros ds [_ H]. rewrite <- (app_nil_r ds) at 1. rewrite span_digits_app by done. cbn [fst].
    by rewrite read_decimal_value. }
  intros [|e' ds He Hd|e' ds He Hd|e' ds He Hd]; [done| | |]; rewrite <- (R ds Hd); try done.
  destruct Hd as [Hne Hd]. destruct ds as [|d ds]; [done|]. apply Forall_cons in Hd as [Hd _].
  unfold dec in Hd.
  destruct d as [|d|d]; try lia.
  do 7 (destruct d as [d|d|]; try lia; try reflexivity).
Qed.

Lemma read_float_value t r : number_value t r ->
  exists neg m e, read_float t = (neg, m, e) /\ 0 <= m /\
    r = (IZR (if neg then - m else m) * bpow radix10 e)%R.
Proof.
  intros [sg sv i f fd e ev Hs Hi Hf He].
  destruct (int_part_digits i Hi) as (Fi & c & i' & Ei).
  assert (Nf : no_digit (f ++ e)).
  { destruct Hf as [|ds Hd]; [by eapply exp_no_digits|]. by intros ? ? [= <- <-]. }
  exists (bool_decide (sv = -1)), (decimal_value (i ++ fd)), (ev - Z.of_nat (length fd)).
  assert (Ffd : Forall dec fd) by (destruct Hf as [|ds [_ Hd]]; done).
  split; [|split; [apply decimal_value_nonneg; by apply Forall_app|]].
  2: { destruct Hs; [rewrite bool_decide_false by lia|rewrite bool_decide_true by done].
       - by rewrite Z.mul_1_l.
       - by rewrite <- Z.opp_eq_mul_m1, Z.mul_comm || (do 2 f_equal; lia). }
  unfold read_float.
  assert (S : match sg ++ i ++ f ++ e with 45 :: s' => (true, s') | _ => (false, sg ++ i ++ f ++ e) end =
              (bool_decide (sv = -1), i ++ f ++ e)).
  { destruct Hs; [|by rewrite bool_decide_true]. rewrite bool_decide_false by lia. cbn [app].
    rewrite Ei in Fi |- *. apply Forall_cons in Fi as [Hc _]. unfold dec in Hc. cbn [app].
    destruct c as [|c|c]; try lia. do 6 (destruct c as [c|c|]; try lia; try reflexivity). }
  rewrite S, (span_digits_app i (f ++ e) Fi Nf).
  assert (G : match f ++ e with 46 :: s' => span_digits s' | _ => ([], f ++ e) end = (fd, e)).
  { destruct Hf as [|ds [_ Hd]].
    - cbn [app]. destruct He as [|e' ds [-> | ->] _|e' ds [-> | ->] _|e' ds [-> | ->] _]; done.
    - cbn [app]. apply span_digits_app; [done|]. by eapply exp_no_digits. }
  rewrite G, (read_exp e ev He). f_equal. f_equal.
  rewrite !read_decimal_value, decimal_value_app. lia.
Qed.

#[local] Instance fexp32_valid' : Valid_exp fexp32 := fexp_correct 24 128 _.
Definition fix160 := FIX_exp (-160).

Lemma odd_quotient_round a b : (0 < b) ->
  round radix2 fix160 Zrnd_odd (IZR a / IZR b * bpow radix2 (-160)) =
  F2R (Float radix2 (odd_quotient a b) (-160)).
Proof.
  intros Hb. assert (Hb' : (0 < IZR b)%R) by (apply IZR_lt; lia).
  unfold round, scaled_mantissa, cexp. unfold fix160, FIX_exp.
  assert (E : (IZR a / IZR b * bpow radix2 (-160) * bpow radix2 (- -160) = IZR a / IZR b)%R).
  { rewrite Rmult_assoc, <- bpow_plus. replace (-160 + - -160) with 0 by lia. cbn. lra. }
  rewrite E. f_equal. f_equal. unfold Zrnd_odd, odd_quotient.
  rewrite Zfloor_div by lia. pose proof (Z.div_mod a b ltac:(lia)) as D.
  destruct (Req_EM_T (IZR a / IZR b) (IZR (a / b))) as [Q|Q].
  - assert (M : a mod b = 0).
    { assert (Ha : IZR a = (IZR b * IZR (a / b))%R) by (rewrite <- Q; field; lra).
      rewrite <- mult_IZR in Ha. apply eq_IZR in Ha. lia. }
    by rewrite M.
  - destruct (Z.eqb_spec (a mod b) 0) as [M|M].
    { destruct Q. rewrite M, Z.add_0_r in D. rewrite D at 1. rewrite mult_IZR. field. lra. }
    destruct (Z.even (a / b)); [|done]. rewrite Zceil_floor_neq; rewrite Zfloor_div by lia; [done|]. congruence.
Qed.

Lemma round_via_odd x :
  rnd (round radix2 fix160 Zrnd_odd x) = rnd x.
Proof.
  apply (round_N_odd radix2 eq_refl fexp32 fix160).
  - apply _.
  - apply (exists_NE_FLT radix2 (-149) 24). right. lia.
  - apply FIX_exp_valid.
  - apply exists_NE_FIX. 
  - intros e. change (SpecFloat.fexp 24 128 e) with (Z.max (e - 24) (-149)).
    unfold fix160, FIX_exp. lia.
Qed.

Lemma bpow10_pos e : 0 <= e -> bpow radix10 e = IZR (10 ^ e).
Proof. intros H. rewrite <- IZR_Zpower by done. done. Qed.

Lemma odd_quotient_neg a b : 0 < b -> a < 0 -> odd_quotient a b < 0.
Proof.
  intros Hb Ha. unfold odd_quotient. pose proof (Z.div_mod a b ltac:(lia)) as D.
  pose proof (Z.mod_pos_bound a b Hb). assert (Q : a / b < 0) by (apply Z.div_lt_upper_bound; lia).
  destruct (a mod b =? 0); [done|]. destruct (Z.even (a / b)) eqn:E; [|done].
  apply Z.even_spec in E as [k Hk]. lia.
Qed.
Lemma odd_quotient_pos a b : 0 < b -> 0 < a -> 0 < odd_quotient a b.
Proof.
  intros Hb Ha. unfold odd_quotient. pose proof (Z.div_mod a b ltac:(lia)) as D.
  pose proof (Z.mod_pos_bound a b Hb). assert (Q : 0 <= a / b) by (apply Z.div_pos; lia).
  destruct (Z.eqb_spec (a mod b) 0) as [M|M]; [nia|]. destruct (Z.even (a / b)) eqn:E; [lia|].
  destruct (decide (a / b = 0)) as [Z|Z]; [by rewrite Z in E|lia].
Qed.
Lemma odd_quotient_0 b : odd_quotient 0 b = 0.
Proof. unfold odd_quotient. destruct b; reflexivity. Qed.

(** The sign bit of a normalised float. *)
Lemma sign_of n e neg :
  (neg = true -> n <= 0) -> (neg = false -> 0 <= n) ->
  match Rcompare (F2R (Float radix2 n e)) 0 with Eq => neg | Lt => true | Gt => false end = neg.
Proof.
  intros H1 H2. unfold F2R. cbn [Fnum Fexp]. pose proof (bpow_gt_0 radix2 e) as P.
  destruct (Rcompare_spec (IZR n * bpow radix2 e) 0) as [L|L|L]; [|done|].
  - destruct neg; [done|]. specialize (H2 eq_refl). apply IZR_le in H2. exfalso. nra.
  - destruct neg; [|done]. specialize (H1 eq_refl). apply IZR_le in H1. exfalso. nra.
Qed.

(** The float nearest to a decimal fraction, if there is one. *)
Lemma float_of_decimal_val (neg : bool) m e : 0 <= m ->
  let r := (IZR (if neg then - m else m) * bpow radix10 e)%R in
  if Rlt_bool (Rabs (rnd r)) (bpow radix2 128)
  then is_val (float_of_decimal neg m e) (rnd r) /\ Bsign (float_of_decimal neg m e) = neg
  else exists s, float_of_decimal neg m e = B754_infinity s.
Proof.
  intros Hm r. unfold float_of_decimal. set (m' := if neg then - m else m) in *.
  assert (Hs1 : neg = true -> m' <= 0) by (intros ->; unfold m'; lia).
  assert (Hs2 : neg = false -> 0 <= m') by (intros ->; unfold m'; lia).
  assert (Inf : forall x : f32, forall s, B2SF x = binary_overflow 24 128 mode_NE s -> exists s', x = B754_infinity s').
  { intros x s. cbn. destruct x; try done. intros _. by eexists. }
  destruct (Z.leb_spec 0 e) as [He|He].
  - pose proof (binary_normalize_correct 24 128 _ _ mode_NE (m' * 10 ^ e) 0 neg) as C. cbv zeta in C.
    pose proof (Z.pow_nonneg 10 e ltac:(lia)).
    rewrite sign_of in C by (intros Q; specialize (Hs1 Q) || specialize (Hs2 Q); nia).
    assert (E : F2R (Float radix2 (m' * 10 ^ e) 0) = r).
    { unfold F2R, r. cbn [Fnum Fexp bpow]. rewrite mult_IZR, bpow10_pos by done. lra. }
    rewrite E in C. cbn [round_mode] in C. destruct (Rlt_bool _ _).
    + destruct C as (C1 & C2 & C3). by split.
    + by eapply Inf.
  - pose proof (binary_normalize_correct 24 128 _ _ mode_NE
                  (odd_quotient (m' * 2 ^ 160) (10 ^ (- e))) (-160) neg) as C. cbv zeta in C.
    assert (P : 0 < 10 ^ (- e)) by (apply Z.pow_pos_nonneg; lia).
    rewrite sign_of in C.
    2: { intros Q. specialize (Hs1 Q). destruct (decide (m' = 0)) as [-> |]; [by rewrite Z.mul_0_l, odd_quotient_0|].
         pose proof (odd_quotient_neg (m' * 2 ^ 160) _ P ltac:(lia)). lia. }
    2: { intros Q. specialize (Hs2 Q). destruct (decide (m' = 0)) as [-> |]; [by rewrite Z.mul_0_l, odd_quotient_0|].
         pose proof (odd_quotient_pos (m' * 2 ^ 160) _ P ltac:(lia)). lia. }
    rewrite <- (odd_quotient_round _ _ P) in C. cbn [round_mode] in C. rewrite round_via_odd in C.
    assert (E : (IZR (m' * 2 ^ 160) / IZR (10 ^ (- e)) * bpow radix2 (-160) = r)%R).
    { unfold r. rewrite <- (bpow10_pos (- e)) by lia. rewrite mult_IZR.
      change (2 ^ 160) with (Zpower radix2 160). rewrite (IZR_Zpower radix2) by lia.
      change (bpow radix2 (-160)) with (bpow radix2 (- (160))).
      rewrite (bpow_opp radix2 160). pose proof (bpow_gt_0 radix2 160).
      rewrite bpow_opp. pose proof (bpow_gt_0 radix10 e). field. lra. }
    rewrite E in C. destruct (Rlt_bool _ _).
    + destruct C as (C1 & C2 & C3). by split.
    + by eapply Inf.
Qed.

Lemma read_float_sign t r neg m e : number_value t r -> read_float t = (neg, m, e) ->
  neg = true <-> exists t', t = 45 :: t'.
Proof.
  intros H E. destruct (read_float_value t r H) as (neg' & m' & e' & E' & _). 
  destruct H as [sg sv i f fd ex ev Hs Hi Hf He].
  destruct Hs.
  - destruct (int_part_digits i Hi) as (Fi & c & i' & ->). apply Forall_cons in Fi as [Hc _]. unfold dec in Hc.
    split; [|by intros (? & [= -> _]); lia]. intros ->. exfalso.
    assert (N : forall s, read_float (c :: s) = (true, m, e) -> False); [|by eapply N].
    intros s. unfold read_float.
    assert (X : match c :: s with 45 :: s' => (true, s') | _ => (false, c :: s) end = (false, c :: s)).
    { destruct c as [|c|c]; try lia. do 6 (destruct c as [c|c|]; try lia; try reflexivity). }
    rewrite X. destruct (span_digits (c :: s)) as [? s1].
    destruct (match s1 with 46 :: s' => span_digits s' | _ => ([], s1) end) as [? ?]. intros [= ?].
  - split; [by eexists|]. intros _. clear E'. unfold read_float in E. cbn [app] in E.
    destruct (span_digits (i ++ f ++ ex)) as [? s1].
    destruct (match s1 with 46 :: s' => span_digits s' | _ => ([], s1) end) as [? ?]. congruence.
Qed.

Lemma parse_float_value t r : number_value t r ->
  if Rlt_bool (Rabs (rnd r)) (bpow radix2 128)
  then exists x, parse_float t = Some x /\ is_val x (rnd r) /\ (Bsign x = true <-> exists t', t = 45 :: t')
  else parse_float t = None.
Proof.
  intros H. destruct (read_float_value t r H) as (neg & m & e & E & Hm & Er).
  pose proof (read_float_sign t r neg m e H E) as Hs. rewrite Er.
  unfold parse_float. rewrite E. pose proof (float_of_decimal_val neg m e Hm) as V. cbv zeta in V.
  destruct (Rlt_bool _ _).
  - destruct V as [[F V] S]. rewrite <- S in Hs. eexists. split; [|by split].
    by destruct (float_of_decimal neg m e).
  - destruct V as [s ->]. done.
Qed.

Lemma number_has_value t : number t -> exists r, number_value t r.
Proof.
  intros (sg & i & f & e & Hs & Hi & Hf & He & ->).
  assert (S : exists sv, sign_value sg sv) by (destruct Hs as [-> | ->]; eexists; constructor).
  assert (F : exists fd, frac_digits f fd).
  { destruct Hf as [->|(ds & Hd & ->)]; eexists; [constructor|by constructor]. }
  assert (E : exists ev, exp_value e ev).
  { destruct He as [->|(c & g & ds & Hc & Hg & Hd & ->)]; [eexists; constructor|].
    destruct Hg as [->|[-> | ->]]; eexists; [by apply exp_plain|by apply exp_plus|by apply exp_minus]. }
  destruct S as [sv S], F as [fd F], E as [ev E]. eexists. by apply (number_value_of sg sv i f fd e ev).
Qed.
