(** Strings of any bytes written as JSON; texts that are UTF-8. *)
From Verif Require Import Base Json SpecJson JsonFacts JsonCodec SpecJsonText JsonCodecFacts.
#[local] Open Scope Z_scope.

(** ** What is not an error is a character *)

Lemma utf8_1 a : 0 <= a < 128 -> utf8 a = [a].
Proof. intros H. unfold utf8. by rewrite ltb_t by lia. Qed.
Lemma utf8_2 a b : 2 <= a < 32 -> 0 <= b < 64 -> utf8 (a * 64 + b) = [192 + a; 128 + b].
Proof.
  intros Ha Hb. unfold utf8. rewrite ltb_f, ltb_t by lia.
  rewrite Z.div_add_l, Z.div_small, (Z.add_comm (a * 64)), Z.mod_add, Z.mod_small by lia. do 2 f_equal; lia.
Qed.
Lemma utf8_3 a b d : 0 <= a < 16 -> 0 <= b < 64 -> 0 <= d < 64 -> (a = 0 -> 32 <= b) ->
  utf8 (a * 4096 + b * 64 + d) = [224 + a; 128 + b; 128 + d].
Proof.
  intros Ha Hb Hd H0. unfold utf8. rewrite ltb_f, ltb_f, ltb_t by lia.
  replace (a * 4096 + b * 64 + d) with ((a * 64 + b) * 64 + d) by lia.
  change 4096 with (64 * 64). rewrite <- Z.div_div by lia.
  rewrite !Z.div_add_l, (Z.div_small d) by lia. rewrite (Z.add_comm ((a * 64 + b) * 64)), Z.mod_add, (Z.mod_small d) by lia.
  rewrite Z.add_0_r, Z.div_add_l, (Z.div_small b) by lia.
  rewrite (Z.add_comm (a * 64)), Z.mod_add, Z.mod_small by lia. do 2 f_equal; lia.
Qed.
Lemma utf8_4 a b d e : 0 <= a < 5 -> 0 <= b < 64 -> 0 <= d < 64 -> 0 <= e < 64 -> (a = 0 -> 16 <= b) ->
  utf8 (a * 262144 + b * 4096 + d * 64 + e) = [240 + a; 128 + b; 128 + d; 128 + e].
Proof.
  intros Ha Hb Hd He H0. unfold utf8. rewrite ltb_f, ltb_f, ltb_f by lia.
  replace (a * 262144 + b * 4096 + d * 64 + e) with (((a * 64 + b) * 64 + d) * 64 + e) by lia.
  change 262144 with (64 * 64 * 64). change 4096 with (64 * 64). rewrite <- !Z.div_div by lia.
  rewrite (Z.add_comm (((a * 64 + b) * 64 + d) * 64)) at 4. rewrite Z.mod_add, (Z.mod_small e) by lia.
  rewrite !(Z.div_add_l _ 64 e), (Z.div_small e), !Z.add_0_r by lia.
  rewrite (Z.add_comm ((a * 64 + b) * 64)) at 3. rewrite Z.mod_add, (Z.mod_small d) by lia.
  rewrite !(Z.div_add_l _ 64 d), (Z.div_small d), !Z.add_0_r by lia.
  rewrite (Z.add_comm (a * 64)) at 2. rewrite Z.mod_add, (Z.mod_small b) by lia.
  rewrite (Z.div_add_l _ 64 b), (Z.div_small b), !Z.add_0_r by lia. done.
Qed.

Lemma decode_rune_scalar c0 s c n :
  128 <= c0 -> decode_rune (c0 :: s) = (c, n) -> (c = rune_error /\ n = 1%nat) \/
  (scalar c /\ 128 <= c /\ exists r, c0 :: s = utf8 c ++ r /\ n = length (utf8 c)).
Proof.
  intros H0. cbn [decode_rune]. rewrite ltb_f by lia. cbv zeta. unfold cont.
  destruct (_ && (c0 <=? 223)) eqn:C2.
  { destruct s as [|c1 s]; [intros [= <- <-]; by left|].
    match goal with |- (if ?x then _ else _) = _ -> _ => destruct x eqn:E end; intros [= <- <-]; [right|by left].
    split; [unfold scalar; lia|]. split; [lia|]. exists s. rewrite utf8_2 by lia. cbn. split; [|done].
    do 2 f_equal; [lia|]. f_equal; lia. }
  destruct (_ && (c0 <=? 239)) eqn:C3.
  { destruct s as [|c1 [|c2 s]]; [intros [= <- <-]; by left..|].
    match goal with |- (if ?x then _ else _) = _ -> _ => destruct x eqn:E end; intros [= <- <-]; [right|by left].
    assert (c0 = 224 -> 160 <= c1) by (intros ->; cbn in E; lia). assert (c0 = 237 -> c1 <= 159) by (intros ->; cbn in E; lia).
    assert (128 <= c1 <= 191) by (destruct (c0 =? 224), (c0 =? 237); lia).
    split; [unfold scalar; lia|]. split; [lia|]. exists s. rewrite utf8_3 by lia. cbn. split; [|done].
    f_equal; [lia|]. f_equal; [lia|]. f_equal; lia. }
  destruct (_ && (c0 <=? 244)) eqn:C4; [|intros [= <- <-]; by left].
  destruct s as [|c1 [|c2 [|c3 s]]]; [intros [= <- <-]; by left..|].
  match goal with |- (if ?x then _ else _) = _ -> _ => destruct x eqn:E end; intros [= <- <-]; [right|by left].
  assert (c0 = 240 -> 144 <= c1) by (intros ->; cbn in E; lia). assert (c0 = 244 -> c1 <= 143) by (intros ->; cbn in E; lia).
  assert (128 <= c1 <= 191) by (destruct (c0 =? 240), (c0 =? 244); lia).
  split; [unfold scalar; lia|]. split; [lia|]. exists s. rewrite utf8_4 by lia. cbn. split; [|done].
  f_equal; [lia|]. f_equal; [lia|]. f_equal; [lia|]. f_equal; lia.
Qed.

(** ** Quoting any bytes *)

Lemma quote_shown fuel : forall s, Forall (fun b => 0 <= b) s -> (length s <= fuel)%nat ->
  exists cs, shown s cs /\ means (quote fuel s) cs.
Proof.
  induction fuel as [|fuel IH]; intros s Hs Hf.
  { destruct s; [|cbn in Hf; lia]. exists []. split; constructor. }
  destruct s as [|b s]; [exists []; split; constructor|]. pose proof Hs as [Hb Hs']%Forall_cons. cbn [length] in Hf.
  cbn [quote]. destruct (Z.ltb_spec b 128) as [L|L].
  - destruct (IH s Hs' ltac:(lia)) as (cs & Hsh & Hm). exists (b :: cs).
    assert (Hsc : scalar b) by (unfold scalar; lia). split.
    { pose proof (shown_char b s cs Hsc Hsh) as Hx. by rewrite utf8_1 in Hx by lia. }
    destruct (html_safe b) eqn:E1.
    { apply html_safe_spec in E1. rewrite <- (utf8_1 b) by lia. apply means_plain; [done|lia..|done]. }
    destruct (_ || (b =? 34)) eqn:E2.
    { cbn [app]. apply means_escape; [|done]. assert (b = 92 \/ b = 34) as [-> | ->] by lia; constructor. }
    destruct (Z.eqb_spec b 10) as [->|]; [cbn; apply means_escape; [constructor|done]|].
    destruct (Z.eqb_spec b 13) as [->|]; [cbn; apply means_escape; [constructor|done]|].
    destruct (Z.eqb_spec b 9) as [->|]; [cbn; apply means_escape; [constructor|done]|].
    rewrite land15, Z.shiftr_div_pow2 by lia. change (2 ^ 4) with 16.
    pose proof (Z.div_mod b 16 ltac:(lia)). pose proof (Z.mod_pos_bound b 16 ltac:(lia)).
    apply (means_unicode [48; 48; hex_digit (b / 16); hex_digit (b mod 16)]); [|done|done].
    exists 48, 48, (hex_digit (b / 16)), (hex_digit (b mod 16)), 0, 0, (b / 16), (b mod 16).
    split; [done|]. split; [by apply (hex_dec 48)|]. split; [by apply (hex_dec 48)|].
    split; [apply hex_digit_value; lia|]. split; [apply hex_digit_value; lia|]. lia.
  - destruct (decode_rune (b :: s)) as [c n] eqn:D.
    destruct (decode_rune_scalar b s c n L D) as [[-> ->]|(Hc & H128 & r & Er & ->)].
    + destruct (IH s Hs' ltac:(lia)) as (cs & Hsh & Hm). exists (65533 :: cs). split.
      * apply shown_bad; [|done]. intros c r Hc E. rewrite E in D. rewrite (decode_utf8 c r Hc) in D.
        injection D as -> Hl. discriminate Hl.
      * cbn [Z.eqb Pos.eqb andb Nat.eqb rune_error]. change (drop 1 (b :: s)) with s.
        apply (means_unicode [102; 102; 102; 100]); [|unfold scalar; lia|done].
        exists 102, 102, 102, 100, 15, 15, 15, 13. split; [done|].
        repeat (split; [first [by apply (hex_lower 102)|by apply (hex_lower 100)]|]). done.
    + destruct (utf8_nonempty c Hc) as (b' & r' & E & _ & _).
      assert (Hlen : (0 < length (utf8 c))%nat) by (rewrite E; cbn; lia).
      rewrite Er, take_app, drop_app.
      destruct (IH r) as (cs & Hsh & Hm).
      { assert (Forall (fun b => 0 <= b) (utf8 c ++ r)) as Hx by (by rewrite <- Er). by apply Forall_app in Hx as [_ Hx]. }
      { apply (f_equal length) in Er. rewrite app_length in Er. cbn [length] in Er. lia. }
      exists (c :: cs). split; [by apply shown_char|].
      destruct (_ && (_ =? 1)%nat) eqn:E1.
      { exfalso. apply andb_true_iff in E1 as [E1 E2]. apply Z.eqb_eq in E1. subst c. done. }
      destruct (_ || (c =? 8233)) eqn:E2; [|apply means_plain; [done|lia..|done]].
      rewrite land15.
      apply (means_unicode [50; 48; 50; hex_digit (c mod 16)]); [|done|done].
      exists 50, 48, 50, (hex_digit (c mod 16)), 2, 0, 2, (c mod 16).
      split; [done|]. split; [by apply (hex_dec 50)|]. split; [by apply (hex_dec 48)|].
      split; [by apply (hex_dec 50)|]. split; [apply hex_digit_value, Z.mod_pos_bound; lia|].
      assert (c = 8232 \/ c = 8233) as [-> | ->] by lia; reflexivity.
Qed.

(** Text that is UTF-8 is shown as it is, and in no other way. *)
Lemma shown_exact cs : Forall scalar cs -> forall cs', shown (utf8_text cs) cs' <-> cs' = cs.
Proof.
  induction 1 as [|c cs Hc Hcs IH]; intros cs'.
  - unfold utf8_text. cbn [map concat]. split; [|intros ->; constructor]. intros H. inversion H as [|c s l Hc _ E|]; subst; [done|].
    destruct (utf8_nonempty c Hc) as (b & r & E' & _). rewrite E' in E. done.
  - unfold utf8_text. cbn [map concat]. fold (utf8_text cs).
    split; [|intros ->; by apply shown_char, IH]. intros H.
    inversion H as [E|c' s l Hc' Hs E|b s l Hbad _ E]; subst.
    + destruct (utf8_nonempty c Hc) as (b & r & E' & _). rewrite E' in E. done.
    + pose proof (decode_utf8 c (utf8_text cs) Hc) as D. rewrite <- E, (decode_utf8 c' s Hc') in D.
      injection D as -> _. apply app_inv_head in E as ->. by apply IH in Hs as ->.
    + by destruct (Hbad c (utf8_text cs) Hc E).
Qed.

(** ** Reading any string *)

Lemma means_reads s cs : means s cs -> reads s cs.
Proof.
  induction 1 as [|c s cs Hc H1 H2 H3 _ IH|d c s cs He _ IH|h c s cs Hh Hc _ IH|h1 v1 h2 v2 s cs Hh1 Hh2 Hv1 Hv2 _ IH].
  - constructor.
  - by apply reads_plain.
  - by apply reads_escape.
  - by apply reads_unicode.
  - by apply reads_pair.
Qed.

Lemma reads_scalars s cs : reads s cs -> Forall scalar cs.
Proof.
  induction 1 as [|c s cs Hc H1 H2 H3 _ IH|b s cs Hb Hbad _ IH|d c s cs He _ IH|h c s cs Hh Hc _ IH
    |h1 v1 h2 v2 s cs Hh1 Hh2 Hv1 Hv2 _ IH|h v s cs Hh Hv Hno _ IH]; constructor; try done.
  - unfold scalar. lia.
  - destruct He; unfold scalar; lia.
  - unfold scalar. lia.
  - unfold scalar. lia.
Qed.

Lemma getu4_inv s : 0 <= getu4 s -> exists h r, s = 92 :: 117 :: h ++ r /\ hex4_value h (getu4 s).
Proof.
  unfold getu4. intros H.
  repeat match type of H with context [match ?x with _ => _ end] =>
    is_var x; destruct x; try (exfalso; lia) end.
  match type of H with context [match hex_val ?a with _ => _ end] => rename a into h1 end.
  destruct (hex_val h1) as [v1|] eqn:E1; [|lia]. 
  repeat match type of H with context [match hex_val ?a with _ => _ end] =>
    destruct (hex_val a) eqn:?; [|lia] end.
  eexists [_; _; _; _], _. split; [reflexivity|]. eexists _, _, _, _, _, _, _, _. split; [reflexivity|].
  repeat (split; [apply hex_val_spec; eassumption|]). lia.
Qed.

Lemma unquote_reads s cs : reads s cs -> forall fuel, (length s < fuel)%nat ->
  unquote fuel s = Some (utf8_text cs).
Proof.
  induction 1 as [|c s cs Hc H1 H2 H3 _ IH|b s cs Hb Hbad _ IH|d c s cs He _ IH|h c s cs Hh Hc _ IH
    |h1 v1 h2 v2 s cs Hh1 Hh2 Hv1 Hv2 _ IH|h v s cs Hh Hv Hno _ IH]; intros fuel Hf.
  - destruct fuel; [cbn in Hf; lia|done].
  - unfold utf8_text. cbn [map concat]. fold (utf8_text cs). rewrite app_length in Hf.
    destruct (utf8_nonempty c Hc) as (b & r & E & F & Hb). rewrite E in Hf. cbn in Hf.
    destruct fuel as [|fuel]; [lia|]. specialize (IH fuel ltac:(lia)).
    pose proof (decode_utf8 c s Hc) as D. destruct (decide (c < 128)) as [L|L].
    + rewrite utf8_1 by (unfold scalar in Hc; lia). cbn [app unquote]. bools. by rewrite IH.
    + specialize (F ltac:(lia)). rewrite E in D |- *. cbn [app] in *. cbn [unquote].
      rewrite (eqb_f b 92), (eqb_f b 34), (ltb_f b 32), (ltb_f b 128) by lia. cbn [orb].
      rewrite D. cbn [length]. rewrite skipn_cons, drop_app, IH. rewrite encode_utf8, E by done. done.
  - cbn [length] in Hf. destruct fuel as [|fuel]; [lia|]. specialize (IH fuel ltac:(lia)). cbn [unquote].
    rewrite (eqb_f b 92), (eqb_f b 34), (ltb_f b 32), (ltb_f b 128) by lia. cbn [orb].
    destruct (decode_rune (b :: s)) as [c n] eqn:D.
    destruct (decode_rune_scalar b s c n Hb D) as [[-> ->]|(Hc & _ & r & Er & _)]; [|by destruct (Hbad c r Hc)].
    change (drop 1 (b :: s)) with s. rewrite IH. rewrite encode_utf8 by (unfold scalar, rune_error; lia). done.
  - cbn in Hf. destruct fuel as [|fuel]; [lia|]. specialize (IH fuel ltac:(lia)).
    unfold utf8_text. cbn [map concat]. fold (utf8_text cs).
    destruct He; cbn; rewrite IH; done.
  - destruct (getu4_hex4 h c s Hh) as (G & R & Lh). cbn in Hf. rewrite app_length in Hf.
    destruct fuel as [|fuel]; [lia|]. specialize (IH fuel ltac:(lia)).
    cbn [unquote]. rewrite !Z.eqb_refl. rewrite G. rewrite ltb_f by lia. cbv zeta.
    assert (S : is_surrogate c = false).
    { unfold is_surrogate. unfold scalar in Hc. destruct Hc; bools; done. }
    rewrite S. change (drop 6 (92 :: 117 :: h ++ s)) with (drop 4 (h ++ s)).
    rewrite <- Lh, drop_app, IH. by rewrite encode_utf8.
  - destruct (getu4_hex4 h1 v1 (92 :: 117 :: h2 ++ s) Hh1) as (G1 & R1 & L1).
    destruct (getu4_hex4 h2 v2 s Hh2) as (G2 & R2 & L2).
    cbn in Hf. rewrite app_length in Hf. cbn in Hf. rewrite app_length in Hf.
    destruct fuel as [|fuel]; [lia|]. specialize (IH fuel ltac:(lia)).
    cbn [unquote]. rewrite !Z.eqb_refl. rewrite G1. rewrite ltb_f by lia. cbv zeta.
    assert (S : is_surrogate v1 = true) by (unfold is_surrogate; bools; done). rewrite S.
    change (drop 6 (92 :: 117 :: h1 ++ 92 :: 117 :: h2 ++ s)) with (drop 4 (h1 ++ 92 :: 117 :: h2 ++ s)).
    assert (D1 : drop 4 (h1 ++ 92 :: 117 :: h2 ++ s) = 92 :: 117 :: h2 ++ s) by (rewrite <- L1; apply drop_app).
    rewrite D1. rewrite G2. unfold utf16_decode. bools.
    rewrite eqb_f by (unfold rune_error; lia).
    change (drop 6 (92 :: 117 :: h2 ++ s)) with (drop 4 (h2 ++ s)). rewrite <- L2, drop_app, IH.
    rewrite encode_utf8 by (unfold scalar; lia). unfold utf8_text. cbn [map concat fmap option_fmap option_map].
    do 3 f_equal. lia.
  - destruct (getu4_hex4 h v s Hh) as (G & R & Lh). cbn in Hf. rewrite app_length in Hf.
    destruct fuel as [|fuel]; [lia|]. specialize (IH fuel ltac:(lia)).
    cbn [unquote]. rewrite !Z.eqb_refl. rewrite G. rewrite ltb_f by lia. cbv zeta.
    assert (S : is_surrogate v = true) by (unfold is_surrogate; bools; done). rewrite S.
    change (drop 6 (92 :: 117 :: h ++ s)) with (drop 4 (h ++ s)). rewrite <- Lh, drop_app.
    assert (Dec : utf16_decode v (getu4 s) = rune_error).
    { unfold utf16_decode. destruct (_ && _ && _ && _) eqn:E; [|done]. exfalso.
      destruct (getu4_inv s ltac:(lia)) as (h2 & r & Es & Hh2). by eapply (Hno ltac:(lia) h2 _ r Hh2); [lia|]. }
    rewrite Dec, Z.eqb_refl, IH. rewrite encode_utf8 by (unfold scalar, rune_error; lia). done.
Qed.

Lemma unquote_string_reads s cs : reads s cs -> unquote_string s = Some (utf8_text cs).
Proof. intros H. apply unquote_reads; [done|lia]. Qed.

(** Every string can be read. *)
Lemma chars_suffix l r : Forall (fun x => 128 <= x) l -> chars (l ++ r) -> chars r.
Proof.
  induction 1 as [|x l Hx _ IH]; intros H; [done|]. apply IH. cbn in H. inversion H; subst; [done|lia|lia].
Qed.
Lemma reads_total s : chars s -> exists cs, reads s cs.
Proof.
  remember (length s) as n eqn:Hn. revert s Hn. induction (lt_wf n) as [n _ IH]. intros s -> H.
  inversion H as [|c s' H1 H2 H3 Hs|d s' Hd Hs|h1 h2 h3 h4 s' E1 E2 E3 E4 Hs]; subst.
  - exists []. constructor.
  - destruct (decide (c < 128)) as [L|L].
    + destruct (IH (length s') ltac:(cbn; lia) s' eq_refl Hs) as (cs & Hr). exists (c :: cs).
      change (c :: s') with ([c] ++ s'). rewrite <- (utf8_1 c) by lia. apply reads_plain; [unfold scalar; lia|lia|done..].
    + destruct (decode_rune (c :: s')) as [x k] eqn:D.
      destruct (decode_rune_scalar c s' x k ltac:(lia) D) as [[-> ->]|(Hx & H128 & r & Er & _)].
      * destruct (IH (length s') ltac:(cbn; lia) s' eq_refl Hs) as (cs & Hr). exists (65533 :: cs).
        apply reads_bad; [lia| |done]. intros y r Hy E. rewrite E, (decode_utf8 y r Hy) in D.
        injection D as -> Hl. discriminate Hl.
      * destruct (utf8_nonempty x Hx) as (b & u & Eu & F & _). specialize (F H128).
        assert (Hr : chars r). { apply (chars_suffix (utf8 x)); [by rewrite Eu|by rewrite <- Er]. }
        assert (Hl : (length r < length (c :: s'))%nat) by (rewrite Er, Eu, app_length; cbn; lia).
        destruct (IH (length r) Hl r eq_refl Hr) as (cs & Hcs). exists (x :: cs). rewrite Er.
        apply reads_plain; [done|lia..|done].
  - destruct (IH (length s') ltac:(cbn; lia) s' eq_refl Hs) as (cs & Hr).
    assert (exists c, escape_value d c) as (c & Hc).
    { rewrite !elem_of_cons, elem_of_nil in Hd. decompose [or] Hd; subst; try done; eexists; constructor. }
    exists (c :: cs). by apply reads_escape.
  - assert (HV : forall b, hex b -> exists v, hex_value b v).
    { intros b [Hb|[Hb|Hb]]; [unfold dec in Hb|..]; eexists; [by apply hex_dec|by apply hex_lower|by apply hex_upper]. }
    destruct (HV _ E1) as (v1 & V1), (HV _ E2) as (v2 & V2), (HV _ E3) as (v3 & V3), (HV _ E4) as (v4 & V4).
    pose proof (hex_value_range _ _ V1). pose proof (hex_value_range _ _ V2).
    pose proof (hex_value_range _ _ V3). pose proof (hex_value_range _ _ V4).
    set (v := v1 * 4096 + v2 * 256 + v3 * 16 + v4).
    assert (Hh : hex4_value [h1; h2; h3; h4] v) by (by exists h1, h2, h3, h4, v1, v2, v3, v4).
    change (92 :: 117 :: h1 :: h2 :: h3 :: h4 :: s') with (92 :: 117 :: [h1; h2; h3; h4] ++ s').
    destruct (decide (55296 <= v < 57344)) as [Hsur|Hsc].
    2: { destruct (IH (length s') ltac:(cbn; lia) s' eq_refl Hs) as (cs & Hr). exists (v :: cs).
         apply reads_unicode; [done|unfold scalar; lia|done]. }
    destruct (decide (v < 56320 /\ 56320 <= getu4 s' < 57344)) as [[Hv Hlow]|Hno].
    + destruct (getu4_inv s' ltac:(lia)) as (hh & r & -> & Hhh).
      assert (Hr : chars r).
      { destruct Hhh as (a1 & a2 & a3 & a4 & w1 & w2 & w3 & w4 & -> & A1 & _). cbn in Hs.
        inversion Hs as [|? ? ? ? Hbad|d' s'' Hd|]; subst; [lia|by rewrite !elem_of_cons, elem_of_nil in Hd; lia|done]. }
      assert (Hl : (length r < length (92%Z :: 117%Z :: [h1; h2; h3; h4] ++ 92%Z :: 117%Z :: hh ++ r))%nat).
      { cbn. rewrite app_length. lia. }
      destruct (IH (length r) Hl r eq_refl Hr) as (cs & Hcs). eexists.
      apply reads_pair with (v1 := v) (v2 := getu4 (92 :: 117 :: hh ++ r)); [done|done|lia|done|exact Hcs].
    + destruct (IH (length s') ltac:(cbn; lia) s' eq_refl Hs) as (cs & Hr). exists (65533 :: cs).
      apply reads_half with (v := v); [done|done| |done]. intros Hlt hh vv r Hhh Hvv ->.
      destruct Hno. split; [done|]. destruct (getu4_hex4 hh vv r Hhh) as (-> & _). done.
Qed.

(** ** Texts that are UTF-8 *)

Lemma encoded_app a b : utf8_encoded a -> utf8_encoded b -> utf8_encoded (a ++ b).
Proof.
  intros (cs & Hc & ->) (ds & Hd & ->). exists (cs ++ ds). split; [by apply Forall_app|].
  unfold utf8_text. by rewrite map_app, concat_app.
Qed.
Lemma encoded_ascii a : Forall (fun b => 0 <= b < 128) a -> utf8_encoded a.
Proof.
  intros H. exists a. split; [eapply Forall_impl; [exact H|]; unfold scalar; cbn; lia|].
  induction H as [|b a Hb _ IH]; [done|]. unfold utf8_text in *. cbn [map concat]. rewrite utf8_1 by done. cbn. congruence.
Qed.
Lemma encoded_cons b a : 0 <= b < 128 -> utf8_encoded a -> utf8_encoded (b :: a).
Proof. intros Hb Ha. apply (encoded_app [b]); [|done]. apply encoded_ascii. apply Forall_cons; split; [done|apply Forall_nil_2]. Qed.
(** All bytes of a literal. *)
Ltac literal_ascii := repeat (apply Forall_cons; split; [lia|]); apply Forall_nil_2.
Lemma encoded_ws w : ws w -> utf8_encoded w.
Proof. intros H. apply encoded_ascii. eapply Forall_impl; [exact H|]. intros b. unfold ws_char. lia. Qed.

Lemma hex4_ascii h v : hex4_value h v -> Forall (fun b => 0 <= b < 128) h.
Proof.
  intros (h1 & h2 & h3 & h4 & v1 & v2 & v3 & v4 & -> & H1 & H2 & H3 & H4 & _).
  assert (Hx : forall b w, hex_value b w -> 0 <= b < 128) by (intros b w []; lia). repeat constructor; eapply Hx; done.
Qed.
Lemma means_encoded raw cs : means raw cs -> utf8_encoded raw.
Proof.
  induction 1 as [|c s cs Hc H1 H2 H3 _ IH|d c s cs He _ IH|h c s cs Hh Hc _ IH|h1 v1 h2 v2 s cs Hh1 Hh2 Hv1 Hv2 _ IH].
  - apply encoded_ascii. literal_ascii.
  - apply encoded_app; [|done]. exists [c]. split; [by apply Forall_cons; split|]. unfold utf8_text. cbn. by rewrite app_nil_r.
  - apply encoded_cons; [lia|]. apply encoded_cons; [destruct He; lia|done].
  - apply encoded_cons; [lia|]. apply encoded_cons; [lia|]. apply encoded_app; [|done].
    by eapply encoded_ascii, hex4_ascii.
  - apply encoded_cons; [lia|]. apply encoded_cons; [lia|]. apply encoded_app; [by eapply encoded_ascii, hex4_ascii|].
    apply encoded_cons; [lia|]. apply encoded_cons; [lia|]. apply encoded_app; [by eapply encoded_ascii, hex4_ascii|done].
Qed.

Lemma number_ascii s : number s -> Forall (fun b => 0 <= b < 128) s.
Proof.
  assert (Hd : forall ds, Forall dec ds -> Forall (fun b => 0 <= b < 128) ds).
  { intros ds H. eapply Forall_impl; [exact H|]. unfold dec. intros b Hb. cbn. lia. }
  intros (sg & i & f & e & Hsg & Hi & Hf & He & ->).
  apply Forall_app. split; [destruct Hsg as [-> | ->]; literal_ascii|].
  apply Forall_app. split.
  { destruct Hi as [->|(c & ds & -> & Hc & Hds)]; [literal_ascii|]. constructor; [lia|auto]. }
  apply Forall_app. split.
  { destruct Hf as [->|(ds & [_ Hds] & ->)]; [constructor|]. constructor; [lia|auto]. }
  destruct He as [->|(e' & sg' & ds & He' & Hsg' & [_ Hds] & ->)]; [constructor|].
  constructor; [lia|]. apply Forall_app. split; [|auto]. destruct Hsg' as [->|[-> | ->]]; literal_ascii.
Qed.

Lemma texts_encoded :
  (forall t v, value t v -> unicode v -> utf8_encoded t) /\
  (forall b l, elements b l -> Forall unicode l -> utf8_encoded b) /\
  (forall b l, members b l -> Forall (fun m => (exists cs, means (fst m) cs) /\ unicode (snd m)) l -> utf8_encoded b).
Proof.
  apply grammar_ind.
  - intros _. apply encoded_ascii. let l := eval vm_compute in (ascii_bytes "null") in change (ascii_bytes "null") with l. literal_ascii.
  - intros _. apply encoded_ascii. let l := eval vm_compute in (ascii_bytes "true") in change (ascii_bytes "true") with l. literal_ascii.
  - intros _. apply encoded_ascii. let l := eval vm_compute in (ascii_bytes "false") in change (ascii_bytes "false") with l. literal_ascii.
  - intros s H _. by apply encoded_ascii, number_ascii.
  - intros s H U. inversion U as [| | |raw cs Hm| |]; subst. apply encoded_cons; [lia|].
    apply encoded_app; [by eapply means_encoded|]. apply encoded_ascii; literal_ascii.
  - intros w H _. apply encoded_cons; [lia|]. apply encoded_app; [by apply encoded_ws|]. apply encoded_ascii; literal_ascii.
  - intros b l _ IH U. inversion U; subst. apply encoded_cons; [lia|]. apply encoded_app; [by apply IH|].
    apply encoded_ascii; literal_ascii.
  - intros w H _. apply encoded_cons; [lia|]. apply encoded_app; [by apply encoded_ws|]. apply encoded_ascii; literal_ascii.
  - intros b l _ IH U. inversion U; subst. apply encoded_cons; [lia|]. apply encoded_app; [by apply IH|].
    apply encoded_ascii; literal_ascii.
  - intros w1 t w2 v H1 _ IH H2 [U _]%Forall_cons. repeat apply encoded_app; [by apply encoded_ws|by apply IH|by apply encoded_ws].
  - intros w1 t w2 v b l H1 _ IH H2 _ IHb [U Ul]%Forall_cons.
    repeat apply encoded_app; [by apply encoded_ws|by apply IH|by apply encoded_ws|]. apply encoded_cons; [lia|by apply IHb].
  - intros w1 k w2 w3 t w4 v H1 Hk H2 H3 _ IH H4 [[(cs & Hm) U] _]%Forall_cons. cbn [fst snd] in *.
    apply encoded_app; [by apply encoded_ws|]. apply encoded_cons; [lia|].
    apply encoded_app; [by eapply means_encoded|]. apply encoded_cons; [lia|].
    apply encoded_app; [by apply encoded_ws|]. apply encoded_cons; [lia|].
    repeat apply encoded_app; [by apply encoded_ws|by apply IH|by apply encoded_ws].
  - intros w1 k w2 w3 t w4 v b l H1 Hk H2 H3 _ IH H4 _ IHb [[(cs & Hm) U] Ul]%Forall_cons. cbn [fst snd] in *.
    apply encoded_app; [by apply encoded_ws|]. apply encoded_cons; [lia|].
    apply encoded_app; [by eapply means_encoded|]. apply encoded_cons; [lia|].
    apply encoded_app; [by apply encoded_ws|]. apply encoded_cons; [lia|].
    repeat apply encoded_app; [by apply encoded_ws|by apply IH|by apply encoded_ws|]. apply encoded_cons; [lia|by apply IHb].
Qed.

Lemma text_encoded t v : json_text t v -> unicode v -> utf8_encoded t.
Proof.
  intros (w1 & t' & w2 & H1 & Hv & H2 & ->) U.
  repeat apply encoded_app; [by apply encoded_ws|exact (proj1 texts_encoded _ _ Hv U)|by apply encoded_ws].
Qed.
