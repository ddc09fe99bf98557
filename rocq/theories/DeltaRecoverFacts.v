(** Facts about RecoverTo and Recover. *)
From Verif Require Import Base GoIO Lock Delta SpecFile SpecDelta GoIOFacts CodecFacts LockFacts DeltaFacts.

Lemma splits_exists d : exists recs rest, splits d recs rest.
Proof.
  remember (length d) as n eqn:Hn. revert d Hn.
  induction (lt_wf n) as [n _ IH]; intros d ->.
  destruct (decide (length d < 18)%nat) as [Hlt | Hge].
  - exists [], d. repeat split; [constructor|done].
  - destruct (IH (length (drop 18 d))) with (d := drop 18 d) as (recs & rest & E & Hf & Hr).
    + rewrite drop_length. lia.
    + done.
    + exists (take 18 d :: recs), rest. split; [|split; [|done]].
      * cbn [concat]. rewrite <- app_assoc, <- E. by rewrite take_drop.
      * constructor; [rewrite take_length; lia|done].
Qed.

Lemma recovers_exists d : exists out, recovers_to d out.
Proof.
  destruct (decide (take 8 d = delta_magic)) as [Hm | Hm]; [|by exists (delta_image 0 []); right; split; [left|]].
  destruct (decide (length d < 14)%nat) as [Hl | Hl]; [by exists (delta_image 0 []); right; split; [right|]|].
  destruct (splits_exists (drop 14 d)) as (recs & rest & E & Hf & Hr).
  exists (delta_image 0 (filter valid_record recs)). left.
  exists (take 6 (drop 8 d)), recs, rest.
  split; [|split; [rewrite take_length, drop_length; lia|done]].
  rewrite <- E, <- Hm. replace (drop 14 d) with (drop 6 (drop 8 d)) by (by rewrite drop_drop).
  by rewrite take_drop, take_drop.
Qed.

Lemma concat_18_length (recs : list (list byte)) : Forall (fun r => length r = 18%nat) recs ->
  length (concat recs) = (18 * length recs)%nat.
Proof. induction 1 as [|r recs Hr _ IH]; cbn; [done|]. rewrite app_length, Hr, IH. lia. Qed.

Lemma concat_18_inj (a b : list (list byte)) : forall s t,
  Forall (fun r => length r = 18%nat) a -> Forall (fun r => length r = 18%nat) b ->
  (length s < 18)%nat -> (length t < 18)%nat -> concat a ++ s = concat b ++ t -> a = b /\ s = t.
Proof.
  revert b. induction a as [|x a IH]; intros b s t Ha Hb Hs Ht E.
  - destruct b as [|y b]; [done|]. exfalso.
    apply Forall_cons in Hb as [Hy _].
    assert (length (concat [] ++ s) = length (concat (y :: b) ++ t)) as El by by rewrite E.
    cbn in El. rewrite !app_length in El. lia.
  - destruct b as [|y b].
    + exfalso. apply Forall_cons in Ha as [Hx _].
      assert (length (concat (x :: a) ++ s) = length (concat [] ++ t)) as El by by rewrite E.
      cbn in El. rewrite !app_length in El. lia.
    + apply Forall_cons in Ha as [Hx Ha]. apply Forall_cons in Hb as [Hy Hb].
      cbn [concat] in E. rewrite <- !app_assoc in E.
      apply app_inj_1 in E as [-> E]; [|congruence].
      by destruct (IH b s t Ha Hb Hs Ht E) as [-> ->].
Qed.

Lemma recovers_functional d o1 o2 : recovers_to d o1 -> recovers_to d o2 -> o1 = o2.
Proof.
  assert (Hx : forall h recs rest, d = delta_magic ++ h ++ concat recs ++ rest -> length h = 6%nat ->
    ~ (take 8 d <> delta_magic \/ (length d < 14)%nat)).
  { intros h recs rest -> Hh [H | H].
    - by apply H.
    - rewrite !app_length in H. cbn [length delta_magic] in H. lia. }
  intros [(h & recs & rest & E & Hh & Hf & Hr & ->) | [Hb ->]]
         [(h' & recs' & rest' & E' & Hh' & Hf' & Hr' & ->) | [Hb' ->]].
  - rewrite E in E'. apply app_inv_head in E'. apply app_inj_1 in E' as [_ E']; [|congruence].
    by destruct (concat_18_inj _ _ _ _ Hf Hf' Hr Hr' E') as [-> _].
  - by destruct (Hx _ _ _ E Hh).
  - by destruct (Hx _ _ _ E' Hh').
  - done.
Qed.

(** ** RecoverTo *)

Section recover.
  Context {R F : Type} (rd : reader R) (ok : R -> Prop) (rem : R -> list byte) (fr : R -> F).
  Hypothesis L : lawful_any rd ok rem fr.

  Lemma recover_loop_ok recs : forall fuel count r w rest,
    ok r -> healthy w -> rem r = concat recs ++ rest ->
    Forall (fun r => length r = 18%nat) recs -> Forall (Forall is_byte) recs ->
    (length rest < 18)%nat -> (length recs < fuel)%nat -> is_u32 count ->
    exists r', recover_loop rd fuel count (r, w) =
      ((r', fput (concat (filter valid_record recs)) w),
       Ret (u32 (count + Z.of_nat (length (filter valid_record recs))))) /\
      ok r' /\ fr r' = fr r.
  Proof.
    induction recs as [|x recs IH]; intros fuel count r w rest Hr Hw Hrem Hl Hb Hrest Hf Hc;
      (destruct fuel as [|fuel]; [lia|]); cbn [recover_loop].
    - destruct (follows_entry rd ok rem fr L r Hr) as (r' & Hm & Hok & _ & Hfr).
      destruct (read_entry_short (rem r)) as (l' & e & Hs); [by rewrite Hrem|].
      rewrite Hs in Hm. unfold on_fst at 1. rewrite Hm. cbn [snd fst].
      exists r'. rewrite filter_nil. cbn. rewrite Z.add_0_r, u32_id by done. done.
    - apply Forall_cons in Hl as [Hlx Hl]. apply Forall_cons in Hb as [Hbx Hb].
      destruct (follows_entry rd ok rem fr L r Hr) as (r' & Hm & Hok & Hrem' & Hfr).
      cbn [concat] in Hrem. rewrite <- app_assoc in Hrem.
      rewrite Hrem, read_entry_app in Hm, Hrem' by done. cbn [fst snd] in Hm, Hrem'.
      unfold on_fst at 1. rewrite Hm.
      destruct (enc_dec_record x Hlx Hbx) as [Hchk Henc].
      rewrite Hchk. destruct (decide (valid_record x)) as [Hv | Hv].
      + rewrite bool_decide_true by done. cbn [negb].
        rewrite filter_cons_True by done.
        unfold iobind at 1, on_snd at 1.
        destruct (emits_entry fwrite healthy (fun f => f) fwrite_lawful (dec_entry x) w Hw) as (w' & -> & Hw' & ->).
        rewrite Henc by done.
        destruct (IH fuel (u32 (count + 1)) r' (fput x w) rest) as (r'' & -> & Hok' & Hfr'); try done.
        { by apply fput_healthy. } { cbn in Hf. lia. } { apply u32_range. }
        exists r''. cbn [concat length]. rewrite fput_app. split; [|split; [done|congruence]].
        do 2 f_equal. unfold u32. rewrite Zplus_mod_idemp_l. f_equal. lia.
      + rewrite bool_decide_false by done. cbn [negb].
        rewrite filter_cons_False by done.
        destruct (IH fuel count r' w rest) as (r'' & -> & Hok' & Hfr'); try done.
        { cbn in Hf. lia. }
        exists r''. split; [done|]. split; [done|congruence].
  Qed.

  Context (k : fkind).
  Notation empty_buf := (open_file k []).
  Lemma empty_buf_healthy : healthy empty_buf.
  Proof. done. Qed.

  Lemma enc_header_image locked n : is_byte locked -> is_u32 n ->
    enc_header (DHeader delta_version locked n) = [1; locked] ++ be_enc 4 n.
  Proof.
    intros Hl Hn. unfold enc_header. cbn [dh_version dh_locked dh_count].
    rewrite (be_enc_1 locked) by done. done.
  Qed.

  (** What the temporary file holds afterwards. *)
  Lemma recover_to_ok fuel r out : ok r -> Forall is_byte (rem r) ->
    (length (rem r) < fuel)%nat -> Z.of_nat (length (rem r)) < 2 ^ 32 * 18 ->
    recovers_to (rem r) out ->
    exists r' w, recover_to rd fuel (r, empty_buf) = ((r', w), Ret tt) /\ ok r' /\ fr r' = fr r /\
      healthy w /\ f_kind w = k /\ f_data w = out.
  Proof.
    intros Hr Hbytes Hfuel Hbig Hout. unfold recover_to.
    unfold iobind at 1, on_snd at 1.
    destruct (emits_prefix fwrite healthy (fun f => f) fwrite_lawful empty_buf empty_buf_healthy)
      as (w & -> & Hw & ->).
    rewrite delta_prefix_magic.
    destruct (follows_prefix rd ok rem fr L r Hr) as (r1 & Hm & Hok1 & Hrem1 & Hfr1).
    unfold on_fst at 1. rewrite Hm.
    set (w1 := fput delta_magic empty_buf) in *.
    assert (Hzero : exists w2, on_snd (d_write_header fwrite (DHeader delta_version 0 0)) (r1, w1) =
        ((r1, w2), Ret tt) /\ healthy w2 /\ f_kind w2 = k /\ f_data w2 = delta_image 0 []).
    { destruct (emits_header fwrite healthy (fun f => f) fwrite_lawful (DHeader delta_version 0 0) w1 Hw)
        as (w2 & Hw2 & Hh2 & ->).
      exists (fput (enc_header (DHeader delta_version 0 0)) w1).
      unfold on_snd. rewrite Hw2. split; [done|]. done. }
    destruct (d_read_prefix lread (rem r)) as [l1 o1] eqn:Ep. cbn [fst snd] in *.
    destruct (decide (take 8 (rem r) = delta_magic)) as [Hmag | Hmag].
    2:{ destruct (read_prefix_bad _ Hmag) as (l' & e & Hb). rewrite Ep in Hb. injection Hb as -> ->.
        destruct Hzero as (w2 & -> & Hz). exists r1, w2. split; [done|]. split; [done|]. split; [done|].
        destruct Hout as [(h & recs & rest & E & _) | [_ ->]]; [|done].
        exfalso. apply Hmag. by rewrite E. }
    assert (Erem : rem r = delta_magic ++ drop 8 (rem r)) by (rewrite <- Hmag; by rewrite take_drop).
    rewrite Erem, read_prefix_ok in Ep. injection Ep as <- <-.
    destruct (follows_header rd ok rem fr L r1 Hok1) as (r2 & Hm2 & Hok2 & Hrem2 & Hfr2).
    unfold on_fst at 1. rewrite Hm2. rewrite Hrem1 in Hrem2 |- *.
    destruct Hout as [(h & recs & rest & E & Hh & Hf & Hrest & ->) | [Hb ->]].
    2:{ assert (length (drop 8 (rem r)) < 6)%nat as Hs.
        { destruct Hb as [Hb | Hb]; [done|]. rewrite drop_length.
          assert (8 <= length (rem r))%nat; [|lia].
          rewrite Erem, app_length. cbn. lia. }
        destruct (read_header_short _ Hs) as (e & Hs'). rewrite Hs' in Hrem2 |- *. cbn [fst snd].
        destruct (emits_header fwrite healthy (fun f => f) fwrite_lawful (DHeader delta_version 0 0) w1 Hw)
          as (w2 & Hw2 & Hh2 & ->).
        unfold on_snd. rewrite Hw2. exists r2, (fput (enc_header (DHeader delta_version 0 0)) w1).
        split; [done|]. split; [done|]. split; [congruence|done]. }
    assert (Ed : drop 8 (rem r) = h ++ concat recs ++ rest) by (by rewrite E).
    rewrite Ed in *.
    destruct h as [|b0 [|b1 c]]; [done..|]. cbn in Hh. injection Hh as Hh.
    assert (Hhd := read_header_app b0 b1 c (concat recs ++ rest) Hh).
    change ((b0 :: b1 :: c) ++ concat recs ++ rest) with (b0 :: b1 :: c ++ concat recs ++ rest) in *.
    rewrite Hhd in Hrem2 |- *. cbn [fst snd dh_count] in *.
    assert (Hby : Forall is_byte c /\ Forall is_byte (concat recs)).
    { rewrite E in Hbytes. apply Forall_app in Hbytes as [_ Hbytes].
      do 2 apply Forall_inv_tail in Hbytes. rewrite !Forall_app in Hbytes. tauto. }
    destruct Hby as [Hbc Hbr].
    assert (Hcnt : is_u32 (be_dec c)).
    { unfold is_u32. rewrite <- pow256_4, <- Hh. by apply be_dec_range. }
    unfold iobind at 1, on_snd at 1.
    destruct (emits_header fwrite healthy (fun f => f) fwrite_lawful (DHeader delta_version 0 (be_dec c)) w1 Hw)
      as (w2 & -> & Hw2 & ->).
    rewrite enc_header_image by done.
    set (w2 := fput _ w1) in *.
    set (good := filter valid_record recs).
    assert (Hlen : length (rem r) = (14 + 18 * length recs + length rest)%nat).
    { rewrite E, app_length. cbn [length delta_magic]. rewrite !app_length, concat_18_length by done. lia. }
    assert (Hgood : is_u32 (Z.of_nat (length good))).
    { unfold is_u32. pose proof (filter_length valid_record recs). unfold good. lia. }
    assert (Hbrecs : Forall (Forall is_byte) recs) by (by apply Forall_concat in Hbr).
    assert (Hlg : Forall (fun r => length r = 18%nat) good).
    { apply Forall_forall. intros x Hx. apply elem_of_list_filter in Hx as [_ Hx].
      by apply (proj1 (Forall_forall _ _) Hf). }
    unfold iobind at 1.
    destruct (recover_loop_ok recs fuel 0 r2 w2 rest) as (r3 & -> & Hok3 & Hfr3); try done.
    { lia. }
    fold good. rewrite Z.add_0_l, u32_id by done.
    assert (Hw2e : w2 = fput (delta_magic ++ [1; 0] ++ be_enc 4 (be_dec c)) empty_buf) by (by rewrite fput_app).
    set (w3 := fput (concat good) w2).
    assert (Hw3e : w3 = fput (delta_magic ++ ([1; 0] ++ be_enc 4 (be_dec c)) ++ concat good) empty_buf).
    { unfold w3. rewrite Hw2e, <- fput_app. by rewrite <- !app_assoc. }
    assert (Hd3 : f_data w3 = delta_magic ++ ([1; 0] ++ be_enc 4 (be_dec c)) ++ concat good).
    { rewrite Hw3e. rewrite fput_data by (cbn; lia). apply (splice_end _ []). }
    assert (Hh3 : healthy w3) by (rewrite Hw3e; apply fput_healthy, empty_buf_healthy).
    assert (Hk3 : f_kind w3 = k) by (by rewrite Hw3e, fput_kind).
    destruct (be_dec c =? Z.of_nat (length good)) eqn:Eq.
    - apply Z.eqb_eq in Eq. cbn [negb]. exists r3, w3. split; [done|]. split; [done|].
      split; [congruence|]. split; [done|]. split; [done|].
      rewrite Hd3, Eq. rewrite delta_image_enc. by rewrite <- !app_assoc.
    - cbn [negb]. unfold iobind, on_snd.
      change delta_prefix_len with (Z.of_nat 8).
      rewrite fseek_start_nat; [|done|right; rewrite Hd3, app_length; cbn [length delta_magic]; lia].
      destruct (emits_header fwrite healthy (fun f => f) fwrite_lawful
        (DHeader delta_version 0 (Z.of_nat (length good))) (fset_pos 8 w3)) as (w4 & -> & Hw4 & ->).
      { by apply fset_pos_healthy. }
      rewrite enc_header_image by done.
      eexists _, _. split; [done|]. split; [done|]. split; [congruence|].
      split; [done|]. split; [by rewrite fput_kind|].
      rewrite fput_data.
      + cbn [fset_pos f_pos f_data]. rewrite Hd3. rewrite delta_image_enc.
        rewrite splice_mid; [by rewrite <- app_assoc|done|].
        by rewrite !app_length, !be_enc_length.
      + cbn [fset_pos f_pos f_data]. rewrite Hd3, app_length. cbn [length delta_magic]. lia.
  Qed.
End recover.

(** ** io.Copy *)

Lemma copy_loop_ok {R F} (rd : reader R) ok rem (fr : R -> F) csz :
  lawful rd ok rem fr -> (0 < csz)%nat ->
  forall fuel written r w, ok r -> healthy w -> (length (rem r) < fuel)%nat ->
  exists r', copy_loop rd fwrite csz fuel written (r, w) =
    ((r', fput (rem r) w), Ret (written + Z.of_nat (length (rem r)))) /\ ok r'.
Proof.
  intros L Hc. induction fuel as [|fuel IH]; intros written r w Hr Hw Hf; [lia|].
  cbn [copy_loop fst snd].
  destruct (decide (rem r = [])) as [Hnil | Hne].
  - destruct (lawful_eof _ _ _ _ L csz r Hr) as (r' & -> & Hok & _); [done|done|].
    exists r'. rewrite Hnil. cbn. by rewrite Z.add_0_r.
  - destruct (lawful_some _ _ _ _ L csz r Hr) as (r' & bs & -> & Hok & Hbs & Hlen & Hrem & Hfr); [done|done|].
    destruct bs as [|b bs]; [done|].
    rewrite fwrite_healthy by done. rewrite Nat.eqb_refl. cbn [negb].
    destruct (IH (written + Z.of_nat (length (b :: bs))) r' (fput (b :: bs) w) Hok) as (r'' & -> & Hok').
    { by apply fput_healthy. } { rewrite Hrem, app_length in Hf. cbn in Hf. lia. }
    exists r''. split; [|done]. rewrite Hrem, <- fput_app. do 2 f_equal.
    rewrite app_length. lia.
Qed.

Lemma resize_splice d out : resize (length out) (splice 0 out d) = out.
Proof.
  unfold resize, splice. rewrite take_0, app_nil_l.
  rewrite <- (app_assoc out). by rewrite take_app_alt.
Qed.

(** ** Recover *)

Lemma d_recover_ok csz f out : healthy f -> (0 < csz)%nat ->
  Forall is_byte (frem f) -> Z.of_nat (length (frem f)) < 2 ^ 32 * 18 -> recovers_to (frem f) out ->
  d_recover csz f =
    (File (f_kind f) out 0 false [] (f_log f ++ wsets 0 out ++ [WTrunc (length out)]), Ret tt).
Proof.
  intros Hh Hc Hb Hl Hout. unfold d_recover.
  destruct (recover_to_ok fread healthy frem fframe fread_lawful KBuf (S (length (f_data f))) f out)
    as (f1 & tmp & Hrt & Hok1 & Hfr1 & Htmp & Hkt & Hdt); try done.
  { unfold frem. rewrite drop_length. lia. }
  rewrite Hrt.
  unfold iobind at 1, on_fst at 1.
  change 0 with (Z.of_nat 0) at 1. rewrite fseek_start_nat; [|done|right; lia].
  unfold iobind at 1, on_snd at 1.
  change 0 with (Z.of_nat 0) at 1. rewrite fseek_start_nat; [|done|right; lia].
  unfold iobind at 1.
  assert (fset_pos 0 f1 = fset_pos 0 f) as -> by done.
  destruct (copy_loop_ok fread healthy frem fframe csz fread_lawful Hc
    (S (length (f_data (fset_pos 0 tmp)))) 0 (fset_pos 0 tmp) (fset_pos 0 f)) as (t' & -> & _); try done.
  { unfold frem. cbn [fset_pos f_pos f_data]. rewrite drop_0. lia. }
  assert (frem (fset_pos 0 tmp) = out) as -> by (unfold frem; cbn; by rewrite drop_0).
  set (f2 := fput out (fset_pos 0 f)).
  assert (Hh2 : healthy f2) by (by apply fput_healthy).
  rewrite Z.add_0_l.
  unfold iobind, on_fst, ftruncate. destruct Hh2 as [Hc2 He2]. rewrite Hc2. unfold next_fault. rewrite He2.
  rewrite (proj2 (Z.ltb_ge _ 0)) by lia. rewrite Nat2Z.id.
  change 0 with (Z.of_nat 0) at 1. rewrite fseek_start_nat by (done || (right; cbn; lia)).
  f_equal. unfold fset_pos. cbn [f_kind f_data f_closed f_env f_log].
  f_equal.
  - unfold f2. by rewrite fput_kind.
  - unfold f2. rewrite fput_data by (cbn; lia). cbn [fset_pos f_pos f_data]. apply resize_splice.
  - apply Hc2.
  - apply He2.
  - unfold f2. rewrite fput_log. cbn [fset_pos f_log f_pos]. by rewrite app_assoc.
Qed.

(** ** Recovered files *)

Definition good_record (r : list byte) : Prop := length r = 18%nat /\ valid_record r.

Lemma image_recovers locked recs tail : Forall good_record recs -> (length tail < 18)%nat ->
  recovers_to (delta_image locked recs ++ tail) (delta_image 0 recs).
Proof.
  intros Hg Ht. left. exists ([1; locked] ++ be32 (Z.of_nat (length recs))), recs, tail.
  split; [|split; [done|]].
  - unfold delta_image. by rewrite <- !app_assoc.
  - split; [|split; [done|]].
    + eapply Forall_impl; [done|]. by intros r [].
    + f_equal. symmetry. clear Ht. induction Hg as [|r recs [_ Hv] _ IH]; [done|].
      rewrite filter_cons_True by done. by rewrite IH.
Qed.

Lemma recovers_image d out : recovers_to d out ->
  exists recs, out = delta_image 0 recs /\ Forall good_record recs /\
    (18 * length recs <= length d)%nat /\ (Forall is_byte d -> Forall (Forall is_byte) recs).
Proof.
  intros [(h & recs & rest & -> & Hh & Hf & Hr & ->) | [_ ->]].
  - exists (filter valid_record recs). split; [done|].
    split; [|split].
    + apply Forall_forall. intros r Hx. apply elem_of_list_filter in Hx as [Hv Hx].
      split; [|done]. by apply (proj1 (Forall_forall _ _) Hf).
    + pose proof (filter_length valid_record recs).
      rewrite !app_length, concat_18_length by done. lia.
    + intros Hb. rewrite !Forall_app in Hb. destruct Hb as (_ & _ & Hb & _).
      apply Forall_concat in Hb. apply Forall_forall. intros r Hx.
      apply elem_of_list_filter in Hx as [_ Hx]. by apply (proj1 (Forall_forall _ _) Hb).
  - exists []. split; [done|]. split; [constructor|]. cbn. split; [lia|constructor].
Qed.

Lemma image_bytes locked recs : is_byte locked -> Forall (Forall is_byte) recs ->
  Forall is_byte (delta_image locked recs).
Proof.
  intros Hl Hr. rewrite delta_image_enc, !Forall_app.
  split; [unfold delta_magic; repeat (apply Forall_cons; split; [done|]); constructor|].
  split; [repeat (apply Forall_cons; split; [done|]); constructor|]. split; [apply be_enc_bytes|by apply Forall_concat].
Qed.

Lemma image_length locked recs : Forall good_record recs ->
  length (delta_image locked recs) = (14 + 18 * length recs)%nat.
Proof.
  intros H. rewrite delta_image_enc, !app_length, be_enc_length, concat_18_length; [cbn; lia|].
  eapply Forall_impl; [done|]. by intros r [].
Qed.
