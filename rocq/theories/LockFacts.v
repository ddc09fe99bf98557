(** Facts about WriteLocked/IsLocked. *)
From Verif Require Import Base GoIO Lock SpecLock GoIOFacts.

(** Positions a file of that kind can be asked to seek to. *)
Definition can_seek (f : file) (p : nat) : Prop := f_kind f = KOs \/ (p <= length (f_data f))%nat.

Lemma fseek_start_nat p f : healthy f -> can_seek f p ->
  fseek (Z.of_nat p) SeekStart f = (fset_pos p f, Ret (Z.of_nat p)).
Proof.
  intros Hh Hc. rewrite fseek_start; [by rewrite Nat2Z.id|done|lia|].
  destruct Hc; [by left|right; lia].
Qed.

Lemma fseek_cur_any f : healthy f -> can_seek f (f_pos f) ->
  fseek 0 SeekCurrent f = (f, Ret (Z.of_nat (f_pos f))).
Proof.
  intros [Hc _] Hp. unfold fseek. rewrite Hc, Z.add_0_r, Nat2Z.id.
  assert (fset_pos (f_pos f) f = f) as -> by by destruct f.
  rewrite (proj2 (Z.ltb_ge (Z.of_nat (f_pos f)) 0)) by lia.
  destruct Hp as [-> | Hp]; [done|].
  rewrite (proj2 (Z.ltb_ge (Z.of_nat (length (f_data f))) _)) by lia.
  by destruct (f_kind f).
Qed.

Definition lock_bit (b : bool) : Z := if b then 1 else 0.

Lemma write_locked_ok off b f : healthy f -> can_seek f (f_pos f) -> can_seek f off ->
  write_locked_at (Z.of_nat off) b f =
    (File (f_kind f) (splice off [lock_bit b] (f_data f)) (f_pos f) false []
       (f_log f ++ [WSet off (lock_bit b)]), Ret tt).
Proof.
  intros Hh Hp Ho. unfold write_locked_at, iobind.
  rewrite fseek_cur_any by done. cbn [fst snd].
  rewrite fseek_start_nat by done.
  unfold write_all. rewrite fwrite_healthy by (by apply fset_pos_healthy).
  rewrite fseek_start_nat; [|by apply fput_healthy, fset_pos_healthy|].
  - destruct f as [k d p c e l], Hh as [Hc He]; cbn in *; subst. done.
  - destruct Hp as [Hp | Hp]; [by left|]. right.
    cbn [fput fset_pos f_pos f_data f_kind]. rewrite splice_length. lia.
Qed.

Lemma is_locked_ok off b f : healthy f -> can_seek f (f_pos f) -> f_data f !! off = Some b ->
  is_locked_at (Z.of_nat off) f = (f, Ret (negb (b =? 0))).
Proof.
  intros Hh Hp Hb. unfold is_locked_at, iobind.
  rewrite fseek_cur_any by done.
  assert (off < length (f_data f))%nat by (by apply lookup_lt_Some in Hb).
  rewrite fseek_start_nat; [|done|right; lia].
  unfold read_one, fread. destruct Hh as [Hc He]. cbn [fset_pos f_closed].
  rewrite Hc. unfold next_fault. cbn [f_env fset_pos]. rewrite He. cbn [f_kind f_pos f_data fset_pos].
  assert (E : drop off (f_data f) = b :: drop (S off) (f_data f)) by (by apply drop_S).
  rewrite E. cbn [take head default length].
  destruct (f_kind f) eqn:Ek; cbn [f_kind]; rewrite ?Ek.
  all: cbn [take head default length option_fmap].
  all: rewrite fseek_start_nat; [|split; [done|done]|destruct Hp as [Hp | Hp]; [by left|by right]].
  all: destruct f as [k d p c e l]; cbn in *; subst; done.
Qed.

Lemma is_locked_short off f : healthy f -> can_seek f (f_pos f) -> (length (f_data f) <= off)%nat ->
  exists f' e, is_locked_at (Z.of_nat off) f = (f', Err e) /\ f_data f' = f_data f /\
    f_log f' = f_log f /\ f_closed f' = false.
Proof.
  intros Hh Hp Hl. unfold is_locked_at, iobind.
  rewrite fseek_cur_any by done.
  destruct (fseek (Z.of_nat off) SeekStart f) as [f1 o] eqn:E1.
  pose proof (fseek_frame _ _ _ _ _ E1) as (Hk & Hd & Hc & He & Hlog).
  destruct Hh as [Hcl Hen].
  destruct o as [z|e| |]; [|by exists f1, e; rewrite Hd, Hlog, Hc|..].
  - assert (f_pos f1 = off) as Hpos.
    { unfold fseek in E1. rewrite Hcl in E1.
      destruct (match f_kind f with KBuf => _ | KOs => _ end); [done|].
      injection E1 as <- _. cbn. lia. }
    unfold read_one, fread. rewrite Hc, Hcl. unfold next_fault. rewrite He, Hen.
    rewrite Hpos, Hd. rewrite drop_ge by done.
    exists f1, EEOF. rewrite Hd, Hlog, Hc. destruct (f_kind f1); done.
  - exfalso. unfold fseek in E1. destruct (f_closed f); [done|].
    destruct (match f_kind f with KBuf => _ | KOs => _ end); done.
  - exfalso. unfold fseek in E1. destruct (f_closed f); [done|].
    destruct (match f_kind f with KBuf => _ | KOs => _ end); done.
Qed.

Lemma lock_flag_at off : lock_flag_ok off (write_locked_at (Z.of_nat off)) (is_locked_at (Z.of_nat off)).
Proof.
  split.
  - intros f b (Hc & He & Hp) Hl.
    rewrite write_locked_ok by (done || by right).
    set (f' := File _ _ _ _ _ _).
    assert (Hoff : f_data f' !! off = Some (lock_bit b)).
    { cbn. rewrite splice_lookup. rewrite decide_False by lia.
      rewrite decide_True by (cbn; lia). by replace (off - off)%nat with 0%nat by lia. }
    assert (Hu : usable f').
    { split; [done|]. split; [done|]. destruct Hp as [Hp | Hp]; [by left|]. right.
      cbn. rewrite splice_length. lia. }
    exists f'. split; [done|]. split; [done|]. split; [done|]. split; [by destruct b|].
    split.
    + intros i Hi. cbn. rewrite splice_lookup. replace (off - length (f_data f))%nat with 0%nat by lia.
      rewrite app_nil_r. destruct (decide (i < off)%nat); [done|]. rewrite decide_False by (cbn; lia). done.
    + destruct Hu as (? & ? & ?).
      rewrite (is_locked_ok off (lock_bit b)); [|done|done|done]. by destruct b.
  - intros f x (Hc & He & Hp) Hx. by apply is_locked_ok.
Qed.
