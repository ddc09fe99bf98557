(** FileBuffer refines the specification of SpecFile.v and is what the [KBuf]
    files of GoIO.v stand for. *)
From Verif Require Import Base GoIO FileBuffer SpecFile GoIOFacts.

Definition icall_of (c : fbcall) : icall :=
  match c with
  | CRead n => IRead n | CWrite b => IWrite b | CSeek o w => ISeek o w
  | CTruncate s => ITruncate s | CClose => IClose
  end.
Definition ires_of (r : fbres) : ires := (res_bytes r, res_n r, res_err r).

(** How much a call can lengthen the buffer. *)
Definition growth (c : fbcall) : Z :=
  match c with CWrite b => Z.of_nat (length b) | CTruncate s => Z.max 0 s | _ => 0 end.
Definition total_growth (cs : list fbcall) : Z := fold_right Z.add 0 (map growth cs).

(** The int64 argument of Seek. *)
Definition call_ok (c : fbcall) : Prop :=
  match c with CSeek o _ => in_type I64 o | _ => True end.

Record fb_matches (fb : filebuffer) (s : ideal) : Prop := {
  m_len : i_len s = Z.of_nat (length (fb_buffer fb));
  m_pos : i_pos s = fb_offset fb;
  m_closed : i_closed s = fb_closed fb;
  m_at : forall (i : nat) b, fb_buffer fb !! i = Some b -> i_at s (Z.of_nat i) = b
}.

Definition fb_inv (fb : filebuffer) : Prop :=
  0 <= fb_offset fb <= Z.of_nat (length (fb_buffer fb)).

Lemma go_slice_ok s lo hi : 0 <= lo <= hi -> hi <= Z.of_nat (length s) ->
  go_slice s lo hi = Ret (take (Z.to_nat (hi - lo)) (drop (Z.to_nat lo) s)).
Proof.
  intros. unfold go_slice.
  rewrite (proj2 (Z.leb_le 0 lo)), (proj2 (Z.leb_le lo hi)), (proj2 (Z.leb_le hi _)) by lia. done.
Qed.

(** The result of a write as a [splice]. *)
Lemma fb_write_splice b fb : fb_inv fb -> fb_closed fb = false ->
  fb_write b fb = Ret (FB (splice (Z.to_nat (fb_offset fb)) b (fb_buffer fb))
                          (fb_offset fb + Z.of_nat (length b)) false,
                       FBRes [] (Z.of_nat (length b)) None).
Proof.
  intros Hi Hc. unfold fb_write. rewrite Hc. unfold fb_inv in Hi.
  rewrite go_slice_ok by lia. cbn [obind].
  set (o := Z.to_nat (fb_offset fb)).
  assert (Ho : (o <= length (fb_buffer fb))%nat) by (unfold o; lia).
  rewrite (take_ge (drop o _)) by (rewrite drop_length; lia).
  rewrite drop_length.
  do 3 f_equal. unfold splice.
  replace (o - length (fb_buffer fb))%nat with 0%nat by lia. cbn [zeros replicate]. rewrite app_nil_r.
  destruct (decide (length (fb_buffer fb) - o <= length b)%nat).
  - rewrite Nat.min_l by lia. rewrite drop_drop.
    rewrite (drop_ge (fb_buffer fb) (o + (length (fb_buffer fb) - o))) by lia.
    rewrite (drop_ge (fb_buffer fb)) by lia.
    rewrite !app_nil_r.
    destruct (_ <? _)%nat eqn:E.
    + by rewrite <- app_assoc, take_drop.
    + apply Nat.ltb_ge in E. by rewrite (take_ge b) by lia.
  - rewrite Nat.min_r by lia. rewrite Nat.ltb_irrefl.
    rewrite (take_ge b) by lia. rewrite drop_drop. done.
Qed.

Lemma fb_step_total c fb : fb_inv fb -> exists fb' r, fb_step c fb = Ret (fb', r).
Proof.
  intros Hi. destruct c as [n|b|o w|s|]; cbn [fb_step].
  - unfold fb_read. destruct (fb_closed fb); [by eauto|].
    destruct (_ =? 0) eqn:E; [by eauto|]. apply Z.eqb_neq in E. unfold fb_inv in Hi.
    destruct (_ <? _) eqn:E2.
    + apply Z.ltb_lt in E2. rewrite go_slice_ok by lia. cbn. eauto.
    + apply Z.ltb_ge in E2. rewrite go_slice_ok by lia. cbn. eauto.
  - destruct (fb_closed fb) eqn:Hc.
    + unfold fb_write. rewrite Hc. eauto.
    + rewrite fb_write_splice by done. eauto.
  - unfold fb_seek. destruct (fb_closed fb); [by eauto|].
    destruct (if w =? 0 then _ else _); [|by eauto].
    destruct (_ || _); eauto.
  - unfold fb_truncate. destruct (fb_closed fb); [by eauto|].
    destruct (_ <? 0) eqn:E; [by eauto|]. apply Z.ltb_ge in E.
    destruct (_ <=? 0) eqn:E2; [|by eauto]. apply Z.leb_le in E2.
    rewrite go_slice_ok by lia. cbn. eauto.
  - unfold fb_close. eauto.
Qed.

Lemma wrap_i64_id z : in_type I64 z -> wrap I64 z = z.
Proof.
  unfold in_type, wrap, tmin, tmax. cbn. intros. rewrite Z.mod_small; lia.
Qed.
Lemma wrap_i64_over z : 2 ^ 63 <= z < 2 ^ 64 -> wrap I64 z < 0.
Proof.
  intros. assert (Hw : wrap I64 z = (z - - 2 ^ 63) mod 2 ^ 64 + - 2 ^ 63) by done. rewrite Hw.
  replace (z - - 2 ^ 63) with ((z - 2 ^ 63) + 1 * 2 ^ 64) by lia.
  rewrite Z.mod_add by lia. rewrite Z.mod_small; lia.
Qed.

Lemma fb_seek_target fb o (w base : Z) : fb_inv fb -> in_type I64 o ->
  Z.of_nat (length (fb_buffer fb)) < 2 ^ 63 ->
  0 <= base <= Z.of_nat (length (fb_buffer fb)) ->
  (0 <= base + o <= Z.of_nat (length (fb_buffer fb)) -> wrap I64 (base + o) = base + o) /\
  (~ 0 <= base + o <= Z.of_nat (length (fb_buffer fb)) ->
     Z.of_nat (length (fb_buffer fb)) < wrap I64 (base + o) \/ wrap I64 (base + o) < 0).
Proof.
  intros Hi Ho Hl Hb. unfold in_type, tmin, tmax in Ho. cbn in Ho.
  assert (Hr : in_type I64 (base + o) -> wrap I64 (base + o) = base + o) by apply wrap_i64_id.
  split; intros H.
  - apply Hr. unfold in_type, tmin, tmax; cbn. lia.
  - destruct (decide (base + o < 2 ^ 63)).
    + rewrite Hr by (unfold in_type, tmin, tmax; cbn; lia). lia.
    + right. apply wrap_i64_over. lia.
Qed.

(** One call: the buffer and the ideal file agree, and there is such an ideal step. *)
Lemma fb_step_refines c fb s : fb_inv fb -> fb_matches fb s -> call_ok c ->
  Z.of_nat (length (fb_buffer fb)) < 2 ^ 63 ->
  exists fb' r s', fb_step c fb = Ret (fb', r) /\ fb_inv fb' /\
    istep (icall_of c) s s' (ires_of r) /\ fb_matches fb' s' /\
    Z.of_nat (length (fb_buffer fb')) <= Z.of_nat (length (fb_buffer fb)) + growth c.
Proof.
  intros Hi Hm Hok Hlen. pose proof Hm as [Hl Hp Hcl Hat].
  destruct (fb_closed fb) eqn:Hc.
  { destruct c; cbn [fb_step].
    1-4: unfold fb_read, fb_write, fb_seek, fb_truncate; rewrite Hc; do 3 eexists;
      (split; [done|]); (split; [done|]);
      (split; [by apply istep_closed|]); (split; [done|]); cbn; lia.
    do 3 eexists. split; [done|]. split; [done|]. split; [by apply istep_close|].
    split; [by constructor|]. cbn. lia. }
  unfold fb_inv in *.
  destruct c as [n|b|o w|sz|]; cbn [fb_step icall_of].
  - unfold fb_read. rewrite Hc. destruct (_ =? 0) eqn:E.
    + apply Z.eqb_eq in E. do 3 eexists. split; [done|]. split; [done|].
      split; [apply istep_read_eof; [done|lia]|]. split; [done|]. cbn. lia.
    + apply Z.eqb_neq in E.
      set (sz := if _ <? _ then _ else _).
      assert (Hsz : sz = Z.min (Z.of_nat n) (Z.of_nat (length (fb_buffer fb)) - fb_offset fb)).
      { unfold sz. destruct (_ <? _) eqn:E2; [apply Z.ltb_lt in E2|apply Z.ltb_ge in E2]; lia. }
      clearbody sz. rewrite go_slice_ok by lia. cbn [obind].
      replace (fb_offset fb + sz - fb_offset fb) with sz by lia.
      set (bs := take (Z.to_nat sz) (drop (Z.to_nat (fb_offset fb)) (fb_buffer fb))).
      assert (Hbs : Z.of_nat (length bs) = sz).
      { unfold bs. rewrite take_length, drop_length. lia. }
      do 3 eexists. split; [done|]. split; [cbn; lia|].
      split.
      { unfold ires_of. cbn [res_bytes res_n res_err]. rewrite <- Hbs.
        apply istep_read; [done|lia|lia|].
        intros i Hi'.
        destruct (bs !! i) as [x|] eqn:Ex; [|apply lookup_ge_None in Ex; lia].
        f_equal. symmetry.
        unfold bs in Ex. apply lookup_take_Some in Ex as [Ex _]. rewrite lookup_drop in Ex.
        rewrite Hp. replace (fb_offset fb + Z.of_nat i) with (Z.of_nat (Z.to_nat (fb_offset fb) + i)) by lia.
        by apply Hat. }
      split; [constructor; cbn; [done|rewrite Hp, Hbs; done|done|done]|]. cbn. lia.
  - rewrite fb_write_splice by done.
    set (o := Z.to_nat (fb_offset fb)).
    assert (Ho : (o <= length (fb_buffer fb))%nat) by (unfold o; lia).
    do 3 eexists. split; [done|]. cbn [fb_buffer fb_offset fb_closed].
    rewrite splice_length. split; [lia|].
    split.
    { apply (istep_write b s (fun p => if decide (fb_offset fb <= p < fb_offset fb + Z.of_nat (length b))
               then default 0 (b !! Z.to_nat (p - fb_offset fb)) else i_at s p)); [done| |].
      - intros i Hi'. rewrite Hp. rewrite decide_True by lia.
        replace (Z.to_nat (fb_offset fb + Z.of_nat i - fb_offset fb)) with i by lia.
        destruct (b !! i) eqn:Eb; [done|]. apply lookup_ge_None in Eb. lia.
      - intros p Hp'. rewrite decide_False by lia. done. }
    split; [|cbn; lia].
    constructor; cbn.
    + rewrite splice_length. lia.
    + lia.
    + done.
    + intros i x Hx. rewrite splice_lookup in Hx.
      destruct (decide (i < o)%nat).
      * rewrite lookup_app_l in Hx by lia. rewrite decide_False by lia. by apply Hat.
      * destruct (decide (i < o + length b)%nat).
        -- rewrite decide_True by lia.
           replace (Z.to_nat (Z.of_nat i - fb_offset fb)) with (i - o)%nat by lia. by rewrite Hx.
        -- rewrite decide_False by lia. by apply Hat.
  - unfold fb_seek. rewrite Hc. cbn in Hok.
    set (len := Z.of_nat (length (fb_buffer fb))) in *.
    assert (Hgood : forall base t, w = 0 /\ base = 0 \/ w = 1 /\ base = i_pos s \/ w = 2 /\ base = i_len s ->
      (0 <= base + o <= len -> t = base + o) /\ (~ 0 <= base + o <= len -> len < t \/ t < 0) ->
      exists (fb' : filebuffer) (r : fbres) (s' : ideal),
        (if (len <? t) || (t <? 0) then Ret (fb, FBRes [] 0 (Some EInvalid))
         else Ret (FB (fb_buffer fb) t false, FBRes [] t None)) = Ret (fb', r) /\
        0 <= fb_offset fb' <= Z.of_nat (length (fb_buffer fb')) /\
        istep (ISeek o w) s s' (ires_of r) /\ fb_matches fb' s' /\
        Z.of_nat (length (fb_buffer fb')) <= len + growth (CSeek o w)).
    { intros base t Hbase [Ht1 Ht2].
      destruct (decide (0 <= base + o <= len)) as [Hin | Hout].
      - rewrite Ht1 by done.
        rewrite (proj2 (Z.ltb_ge len _)), (proj2 (Z.ltb_ge _ 0)) by lia. cbn [orb].
        do 3 eexists. split; [done|]. split; [cbn; unfold len in *; lia|].
        split; [apply (istep_seek o w base); [done|done|lia]|].
        split; [by constructor|]. cbn. unfold len. lia.
      - destruct (Ht2 Hout).
        + rewrite (proj2 (Z.ltb_lt len t)) by lia. cbn [orb].
          do 3 eexists. split; [done|]. split; [done|].
          split; [apply istep_seek_bad; [done|]|split; [done|unfold len, growth; lia]].
          intros base' Hb'. assert (base' = base) as -> by lia. lia.
        + rewrite (proj2 (Z.ltb_lt t 0)) by lia. rewrite orb_true_r.
          do 3 eexists. split; [done|]. split; [done|].
          split; [apply istep_seek_bad; [done|]|split; [done|unfold len, growth; lia]].
          intros base' Hb'. assert (base' = base) as -> by lia. lia. }
    assert (Hbad : (forall base, ~ (w = 0 /\ base = 0 \/ w = 1 /\ base = i_pos s \/ w = 2 /\ base = i_len s)) ->
      exists (fb' : filebuffer) (r : fbres) (s' : ideal),
        @Ret (filebuffer * fbres) (fb, FBRes [] 0 (Some EInvalid)) = Ret (fb', r) /\
        0 <= fb_offset fb' <= Z.of_nat (length (fb_buffer fb')) /\
        istep (ISeek o w) s s' (ires_of r) /\ fb_matches fb' s' /\
        Z.of_nat (length (fb_buffer fb')) <= len + growth (CSeek o w)).
    { intros Hn. do 3 eexists. split; [done|]. split; [done|].
      split; [apply istep_seek_bad; [done|]|split; [done|unfold len, growth; lia]].
      intros base Hb. by apply Hn in Hb. }
    destruct (w =? 0) eqn:E0; [apply Z.eqb_eq in E0 | apply Z.eqb_neq in E0].
    { apply (Hgood 0); [lia|]. split; lia. }
    destruct (w =? 1) eqn:E1; [apply Z.eqb_eq in E1 | apply Z.eqb_neq in E1].
    { apply (Hgood (fb_offset fb)); [lia|]. apply (fb_seek_target fb o w); done. }
    destruct (w =? 2) eqn:E2; [apply Z.eqb_eq in E2 | apply Z.eqb_neq in E2].
    { apply (Hgood len); [lia|]. apply (fb_seek_target fb o w); unfold len; try done; lia. }
    apply Hbad. intros base Hb. lia.
  - unfold fb_truncate. rewrite Hc.
    destruct (sz <? 0) eqn:E; [apply Z.ltb_lt in E | apply Z.ltb_ge in E].
    { do 3 eexists. split; [done|]. split; [done|].
      split; [by apply istep_truncate_bad|]. split; [done|]. cbn. lia. }
    set (off := if sz <? fb_offset fb then sz else fb_offset fb).
    assert (Hoff : off = Z.min (fb_offset fb) sz).
    { unfold off. destruct (_ <? _) eqn:E2; [apply Z.ltb_lt in E2|apply Z.ltb_ge in E2]; lia. }
    clearbody off.
    destruct (_ <=? 0) eqn:E2; [apply Z.leb_le in E2 | apply Z.leb_gt in E2].
    + rewrite go_slice_ok by lia. cbn [obind].
      do 3 eexists. split; [done|]. cbn [fb_buffer fb_offset].
      rewrite Z.sub_0_r, drop_0. rewrite take_length.
      split; [lia|].
      split; [apply (istep_truncate sz s (i_at s)); [done|done|done|lia]|].
      split; [|cbn; lia].
      constructor; cbn.
      * rewrite take_length. lia.
      * lia.
      * done.
      * intros i x Hx. apply lookup_take_Some in Hx as [Hx _]. by apply Hat.
    + do 3 eexists. split; [done|]. cbn [fb_buffer fb_offset].
      rewrite app_length, replicate_length. split; [lia|].
      split.
      { apply (istep_truncate sz s (fun p => if decide (p < i_len s) then i_at s p else 0)); [done|done| |].
        - intros p Hp'. rewrite decide_True by lia. done.
        - intros p Hp'. rewrite decide_False by lia. done. }
      split; [|cbn; lia].
      constructor; cbn.
      * rewrite app_length, replicate_length. lia.
      * lia.
      * done.
      * intros i x Hx. destruct (decide (i < length (fb_buffer fb))%nat).
        -- rewrite lookup_app_l in Hx by lia. rewrite decide_True by lia. by apply Hat.
        -- rewrite lookup_app_r in Hx by lia. rewrite decide_False by lia.
           by apply lookup_replicate in Hx as [-> _].
  - do 3 eexists. split; [done|]. split; [done|]. split; [by apply istep_close|].
    split; [by constructor|]. cbn. lia.
Qed.

Lemma fb_run_refines cs : forall fb s, fb_inv fb -> fb_matches fb s -> Forall call_ok cs ->
  Z.of_nat (length (fb_buffer fb)) + total_growth cs < 2 ^ 63 ->
  exists fb' rs s', fb_run cs fb = Ret (fb', rs) /\ fb_inv fb' /\
    iruns (map icall_of cs) s s' (map ires_of rs) /\ fb_matches fb' s'.
Proof.
  assert (Hg : forall l, 0 <= total_growth l).
  { induction l as [|c l IH]; unfold total_growth in *; cbn; [lia|].
    assert (0 <= growth c) by (destruct c; cbn; lia). lia. }
  induction cs as [|c cs IH]; intros fb s Hi Hm Hok Hlen.
  - exists fb, [], s. split; [done|]. split; [done|]. split; [constructor|done].
  - apply Forall_cons in Hok as [Hc Hok].
    change (total_growth (c :: cs)) with (growth c + total_growth cs) in Hlen.
    assert (0 <= growth c) by (destruct c; cbn; lia).
    specialize (Hg cs).
    destruct (fb_step_refines c fb s Hi Hm Hc) as (fb' & r & s' & Hs & Hi' & Hst & Hm' & Hl'); [lia|].
    destruct (IH fb' s' Hi' Hm' Hok) as (fb'' & rs & s'' & Hr & Hi'' & Hrs & Hm''); [lia|].
    exists fb'', (r :: rs), s''. cbn [fb_run]. rewrite Hs. cbn [obind]. rewrite Hr. cbn.
    split; [done|]. split; [done|]. split; [by econstructor|done].
Qed.

(** The specification determines the results. *)
Definition same_ideal (s t : ideal) : Prop :=
  i_len s = i_len t /\ i_pos s = i_pos t /\ i_closed s = i_closed t /\
  forall p, 0 <= p < i_len s -> i_at s p = i_at t p.

Lemma istep_det c s s' r t t' r' : same_ideal s t -> 0 <= i_pos s <= i_len s ->
  istep c s s' r -> istep c t t' r' -> same_ideal s' t' /\ r = r' /\ 0 <= i_pos s' <= i_len s'.
Proof.
  intros (Hl & Hp & Hc & Hat) Hi H1 H2.
  destruct H1.
  - inversion H2; subst; try congruence. split; [done|]. split; done.
  - inversion H2; subst; try congruence; [|lia]. split; [done|]. split; done.
  - inversion H2; subst; try congruence; [lia|].
    assert (bs = bs0) as <-.
    { apply list_eq. intros i. destruct (decide (i < length bs)%nat).
      - match goal with H : forall i, _ -> bs !! i = _ |- _ => rewrite H by lia end.
        match goal with H : forall i, _ -> bs0 !! i = _ |- _ => rewrite H by lia end.
        rewrite Hat by lia. by rewrite Hp.
      - rewrite !lookup_ge_None_2 by lia. done. }
    split; [|split; [done|cbn; lia]]. split; [done|]. cbn. split; [lia|]. split; [done|].
    intros p Hp'. by apply Hat.
  - inversion H2; subst; try congruence.
    split; [|split; [done|cbn; lia]]. split; [cbn; lia|]. split; [cbn; lia|]. split; [done|].
    cbn. intros p Hp'.
    destruct (decide (i_pos s <= p < i_pos s + Z.of_nat (length b))) as [Hin | Hout].
    + assert (Some (at' p) = Some (at'0 p)); [|congruence].
      transitivity (b !! Z.to_nat (p - i_pos s)).
      * match goal with H : forall i, _ -> b !! i = Some (at' _) |- _ => rewrite H by lia end.
        do 2 f_equal. lia.
      * match goal with H : forall i, _ -> b !! i = Some (at'0 _) |- _ => rewrite H by lia end.
        do 2 f_equal. lia.
    + match goal with H : forall p, _ -> at' p = _ |- _ => rewrite H by lia end.
      match goal with H : forall p, _ -> at'0 p = _ |- _ => rewrite H by lia end.
      apply Hat. lia.
  - inversion H2; subst; try congruence.
    + assert (base = base0) as <- by lia.
      split; [|split; [done|cbn; lia]]. split; [done|]. cbn. split; [lia|]. split; [done|].
      intros p Hp'. by apply Hat.
    + exfalso. match goal with H : forall base, _ |- _ => apply (H base); lia end.
  - inversion H2; subst; try congruence.
    + exfalso. match goal with H : forall base, _ |- _ => apply (H base); lia end.
    + split; [done|]. split; done.
  - inversion H2; subst; try congruence; [|lia].
    split; [|split; [done|cbn; lia]]. split; [done|]. cbn. split; [lia|]. split; [done|].
    intros p Hp'. destruct (decide (p < i_len s)).
    + match goal with H : forall p, _ -> at' p = i_at _ _ |- _ => rewrite H by lia end.
      match goal with H : forall p, _ -> at'0 p = i_at _ _ |- _ => rewrite H by lia end.
      apply Hat. lia.
    + match goal with H : forall p, _ -> at' p = 0 |- _ => rewrite H by lia end.
      match goal with H : forall p, _ -> at'0 p = 0 |- _ => rewrite H by lia end. done.
  - inversion H2; subst; try congruence; [lia|]. split; [done|]. split; done.
  - inversion H2; subst; try congruence.
    split; [|split; [done|cbn; lia]]. split; [done|]. cbn. split; [lia|]. split; [done|].
    intros p Hp'. by apply Hat.
Qed.

Lemma iruns_det cs : forall s s' rs t t' rs', same_ideal s t -> 0 <= i_pos s <= i_len s ->
  iruns cs s s' rs -> iruns cs t t' rs' -> same_ideal s' t' /\ rs = rs'.
Proof.
  induction cs as [|c cs IH]; intros s s' rs t t' rs' He Hi H1 H2;
    inversion H1; inversion H2; subst; [done|].
  match goal with
  | A : istep c s _ _, B : istep c t _ _ |- _ =>
    destruct (istep_det _ _ _ _ _ _ _ He Hi A B) as (He' & -> & Hi')
  end.
  match goal with
  | A : iruns cs _ s' _, B : iruns cs _ t' _ |- _ =>
    destruct (IH _ _ _ _ _ _ He' Hi' A B) as [? ->]
  end.
  done.
Qed.

(** ** [KBuf] files are FileBuffers *)

Definition as_file (fb : filebuffer) (log : list wop) : file :=
  File KBuf (fb_buffer fb) (Z.to_nat (fb_offset fb)) (fb_closed fb) [] log.

Lemma fread_is_fb_read n fb log : fb_inv fb -> exists fb' r,
  fb_read (Z.of_nat n) fb = Ret (fb', r) /\
  fread n (as_file fb log) = (as_file fb' log, (res_bytes r, res_err r)) /\
  res_n r = Z.of_nat (length (res_bytes r)).
Proof.
  unfold fb_inv, fb_read, fread, as_file. intros Hi. cbn [f_closed f_env next_fault f_kind f_pos f_data].
  destruct (fb_closed fb) eqn:Hc.
  { do 2 eexists. split; [done|]. by rewrite Hc. }
  destruct (_ =? 0) eqn:E; [apply Z.eqb_eq in E | apply Z.eqb_neq in E].
  - do 2 eexists. split; [done|]. rewrite drop_ge by lia. by rewrite Hc.
  - set (sz := if _ <? _ then _ else _).
    assert (Hsz : sz = Z.min (Z.of_nat n) (Z.of_nat (length (fb_buffer fb)) - fb_offset fb)).
    { unfold sz. destruct (_ <? _) eqn:E2; [apply Z.ltb_lt in E2|apply Z.ltb_ge in E2]; lia. }
    clearbody sz. rewrite go_slice_ok by lia. cbn [obind].
    replace (fb_offset fb + sz - fb_offset fb) with sz by lia.
    do 2 eexists. split; [done|]. cbn [res_bytes res_err res_n fb_buffer fb_offset fb_closed].
    set (rest := drop (Z.to_nat (fb_offset fb)) (fb_buffer fb)).
    assert (Hlr : Z.of_nat (length rest) = Z.of_nat (length (fb_buffer fb)) - fb_offset fb).
    { unfold rest. rewrite drop_length. lia. }
    assert (Hbs : take n rest = take (Z.to_nat sz) rest).
    { destruct (decide (n <= length rest)%nat); [f_equal; lia|].
      rewrite !take_ge by lia. done. }
    assert (Hlb : Z.of_nat (length (take (Z.to_nat sz) rest)) = sz) by (rewrite take_length; lia).
    split; [|by rewrite Hlb].
    clearbody rest. destruct rest as [|x rest']; [cbn in Hlr; lia|].
    rewrite Hbs. destruct n as [|n]; unfold fset_pos; cbn [f_kind f_data f_closed f_env f_log f_pos];
      do 2 f_equal; lia.
Qed.

Lemma fwrite_is_fb_write bs fb log : fb_inv fb -> exists fb' r log',
  fb_write bs fb = Ret (fb', r) /\
  fwrite bs (as_file fb log) = (as_file fb' log', (Z.to_nat (res_n r), res_err r)).
Proof.
  intros Hi. destruct (fb_closed fb) eqn:Hc.
  - unfold fb_write, fwrite, as_file. cbn [f_closed]. rewrite Hc. do 3 eexists. split; [done|]. by rewrite Hc.
  - rewrite fb_write_splice by done.
    exists (FB (splice (Z.to_nat (fb_offset fb)) bs (fb_buffer fb)) (fb_offset fb + Z.of_nat (length bs)) false),
      (FBRes [] (Z.of_nat (length bs)) None), (log ++ wsets (Z.to_nat (fb_offset fb)) bs).
    split; [done|]. unfold fb_inv in Hi. rewrite fwrite_healthy by done. cbn [res_n res_err].
    rewrite Nat2Z.id. f_equal.
    unfold as_file. cbn [fb_buffer fb_offset fb_closed].
    destruct bs as [|b bs].
    + cbn. rewrite splice_nil by lia. rewrite app_nil_r, Hc. f_equal. lia.
    + cbn [fput f_kind f_data f_pos f_closed f_env f_log]. rewrite Hc. f_equal. lia.
Qed.

Definition whence_code (w : whence) : Z :=
  match w with SeekStart => 0 | SeekCurrent => 1 | SeekEnd => 2 end.

Lemma fseek_is_fb_seek o w fb log : fb_inv fb -> in_type I64 o ->
  Z.of_nat (length (fb_buffer fb)) < 2 ^ 63 -> exists fb' r,
  fb_seek o (whence_code w) fb = Ret (fb', r) /\
  fseek o w (as_file fb log) =
    (as_file fb' log, match res_err r with None => Ret (res_n r) | Some e => Err e end).
Proof.
  intros Hi Ho Hl. unfold fb_seek, fseek, as_file. cbn [f_closed f_kind f_data f_pos].
  destruct (fb_closed fb) eqn:Hc.
  { do 2 eexists. split; [done|]. cbn. by rewrite Hc. }
  set (len := Z.of_nat (length (fb_buffer fb))) in *. unfold fb_inv in Hi.
  rewrite Z2Nat.id by lia.
  assert (Hgood : forall base t, 
      (0 <= base + o <= len -> t = base + o) -> (~ 0 <= base + o <= len -> len < t \/ t < 0) ->
      exists (fb' : filebuffer) (r : fbres),
        (if (len <? t) || (t <? 0) then Ret (fb, FBRes [] 0 (Some EInvalid))
         else Ret (FB (fb_buffer fb) t false, FBRes [] t None)) = Ret (fb', r) /\
        (if ((base + o <? 0) || (len <? base + o))
         then (File KBuf (fb_buffer fb) (Z.to_nat (fb_offset fb)) false [] log, Err EInvalid)
         else (fset_pos (Z.to_nat (base + o)) (File KBuf (fb_buffer fb) (Z.to_nat (fb_offset fb)) false [] log),
               Ret (base + o))) =
        (File KBuf (fb_buffer fb') (Z.to_nat (fb_offset fb')) (fb_closed fb') [] log,
         match res_err r with None => Ret (res_n r) | Some e => Err e end)).
  { intros base t Ht1 Ht2. destruct (decide (0 <= base + o <= len)) as [Hin | Hout].
    - rewrite Ht1 by done.
      rewrite (proj2 (Z.ltb_ge len _)), (proj2 (Z.ltb_ge _ 0)) by lia. cbn [orb].
      do 2 eexists. split; [done|]. done.
    - specialize (Ht2 Hout).
      assert ((len <? t) || (t <? 0) = true) as -> by (apply orb_true_iff; rewrite !Z.ltb_lt; lia).
      assert ((base + o <? 0) || (len <? base + o) = true) as -> by (apply orb_true_iff; rewrite !Z.ltb_lt; lia).
      do 2 eexists. split; [done|]. cbn. by rewrite Hc. }
  destruct w; cbn [whence_code Z.eqb Pos.eqb].
  - destruct (Hgood 0 o) as (fb' & r & H1 & H2); [lia|lia|]. exists fb', r. split; [exact H1|]. exact H2.
  - destruct (fb_seek_target fb o 1 (fb_offset fb)) as [T1 T2]; try done.
    destruct (Hgood (fb_offset fb) (wrap I64 (fb_offset fb + o))) as (fb' & r & H1 & H2); [done|done|].
    exists fb', r. split; [exact H1|]. exact H2.
  - destruct (fb_seek_target fb o 2 len) as [T1 T2]; try done; [unfold len; lia|].
    destruct (Hgood len (wrap I64 (len + o))) as (fb' & r & H1 & H2); [done|done|].
    exists fb', r. split; [exact H1|]. exact H2.
Qed.

Lemma ftruncate_is_fb_truncate sz fb log : fb_inv fb -> exists fb' r log',
  fb_truncate sz fb = Ret (fb', r) /\
  ftruncate sz (as_file fb log) =
    (as_file fb' log', match res_err r with None => Ret tt | Some e => Err e end).
Proof.
  intros Hi. unfold fb_truncate, ftruncate, next_fault, as_file. cbn [f_closed f_kind f_data f_pos f_env f_log].
  destruct (fb_closed fb) eqn:Hc.
  { do 3 eexists. split; [done|]. cbn. by rewrite Hc. }
  destruct (sz <? 0) eqn:E; [apply Z.ltb_lt in E | apply Z.ltb_ge in E].
  { do 3 eexists. split; [done|]. cbn. by rewrite Hc. }
  unfold fb_inv in Hi.
  set (off := if sz <? fb_offset fb then sz else fb_offset fb).
  assert (Hoff : off = Z.min (fb_offset fb) sz).
  { unfold off. destruct (_ <? _) eqn:E2; [apply Z.ltb_lt in E2|apply Z.ltb_ge in E2]; lia. }
  clearbody off.
  destruct (_ <=? 0) eqn:E2; [apply Z.leb_le in E2 | apply Z.leb_gt in E2].
  - rewrite go_slice_ok by lia. cbn [obind]. do 3 eexists. split; [done|].
    cbn [fb_buffer fb_offset fb_closed res_err]. f_equal. f_equal.
    + unfold resize. rewrite Z.sub_0_r, drop_0.
      replace (Z.to_nat sz - length (fb_buffer fb))%nat with 0%nat by lia. cbn. by rewrite app_nil_r.
    + lia.
  - do 3 eexists. split; [done|].
    cbn [fb_buffer fb_offset fb_closed res_err]. f_equal. f_equal.
    + unfold resize. rewrite take_ge by (rewrite app_length, zeros_length; lia).
      f_equal. unfold zeros. f_equal. lia.
    + lia.
Qed.

Lemma fclose_is_fb_close fb log : exists fb' r,
  fb_close fb = Ret (fb', r) /\ fclose (as_file fb log) = (as_file fb' log, Ret tt) /\ res_err r = None.
Proof. do 2 eexists. split; [done|]. done. Qed.

(** ** WriteZeros/SkipReading against the generic specification *)

Lemma write_zeros_working {W} (wr : writer W) (out : W -> list byte) : working_writer wr out ->
  forall size w, exists w', write_zeros wr size w = (w', (Z.max 0 size, None)) /\
    out w' = out w ++ replicate (Z.to_nat size) 0.
Proof.
  intros L.
  assert (H : forall fuel size total w, size - total <= Z.of_nat fuel ->
    exists w', write_zeros_loop wr fuel size total w = (w', (Z.max total size, None)) /\
      out w' = out w ++ zeros (Z.to_nat (size - total))).
  { induction fuel as [|fuel IH]; intros size total w Hf; cbn [write_zeros_loop].
    - rewrite (proj2 (Z.ltb_ge _ _)) by lia. exists w.
      replace (Z.to_nat (size - total)) with 0%nat by lia.
      replace (Z.max total size) with total by lia. by rewrite app_nil_r.
    - destruct (total <? size) eqn:E.
      + apply Z.ltb_lt in E. unfold chunk_size.
        destruct (L (zeros (Z.to_nat (Z.min (size - total) 100))) w) as (w' & -> & Himg).
        rewrite zeros_length.
        destruct (IH size (total + Z.of_nat (Z.to_nat (Z.min (size - total) 100))) w')
          as (w'' & -> & Himg'); [lia|].
        exists w''. split; [do 2 f_equal; lia|].
        rewrite Himg', Himg, <- app_assoc, zeros_app. do 2 f_equal. lia.
      + apply Z.ltb_ge in E. exists w.
        replace (Z.to_nat (size - total)) with 0%nat by lia.
        replace (Z.max total size) with total by lia. by rewrite app_nil_r. }
  intros size w. unfold write_zeros.
  destruct (H (Z.to_nat size) size 0 w) as (w' & Hw); [lia|]. exists w'. by rewrite Z.sub_0_r in Hw.
Qed.

Lemma stream_reader_lawful {R} (rd : reader R) rest : stream_reader rd rest ->
  lawful rd (fun _ => True) rest (fun _ => tt).
Proof.
  intros L. split.
  - intros n r _ Hn Hr. destruct (L n r Hn) as [(_ & r' & ? & ?) | (r' & bs & ? & Hlen & Hrest)].
    + by exists r'.
    + rewrite Hr in Hrest. destruct bs; [cbn in Hlen; lia|done].
  - intros n r _ Hn Hr. destruct (L n r Hn) as [(? & _) | (r' & bs & ? & Hlen & Hrest)]; [done|].
    exists r', bs. split; [done|]. split; [done|].
    split; [destruct bs; [cbn in Hlen; lia|done]|]. split; [lia|]. done.
Qed.

Lemma any_reader_lawful {R} (rd : reader R) rest : any_reader rd rest ->
  lawful_any rd (fun _ => True) rest (fun _ => tt).
Proof.
  intros L. split.
  - intros n r _ Hn Hr. destruct (L n r Hn) as [(_ & r' & ? & ?) | (r' & bs & e & ? & Hlen & Hrest & _)].
    + by exists r'.
    + rewrite Hr in Hrest. destruct bs; [cbn in Hlen; lia|done].
  - intros n r _ Hn Hr. destruct (L n r Hn) as [(? & _) | (r' & bs & e & ? & Hlen & Hrest & He)]; [done|].
    exists r', bs, e. split; [done|]. split; [done|].
    split; [destruct bs; [cbn in Hlen; lia|done]|]. split; [lia|]. done.
Qed.

Lemma stream_is_any {R} (rd : reader R) rest : stream_reader rd rest -> any_reader rd rest.
Proof.
  intros L n r Hn. destruct (L n r Hn) as [? | (r' & bs & ? & ? & ?)]; [by left|right].
  exists r', bs, None. split; [done|]. split; [done|]. split; [done|]. by left.
Qed.

Lemma skip_reading_stream {R} (rd : reader R) rest : stream_reader rd rest ->
  forall (n : nat) r,
  exists r', rest r' = drop n (rest r) /\
    skip_reading rd (Z.of_nat n) r =
      (r', if decide (n <= length (rest r))%nat then (Z.of_nat n, None)
           else (Z.of_nat (length (rest r)), Some EEOF)).
Proof.
  intros L n r.
  destruct (skip_reading_lawful rd _ _ _ (stream_reader_lawful rd rest L) (Z.of_nat n) r I)
    as (r' & H & _ & Hr & _); [lia|].
  exists r'. rewrite Nat2Z.id in Hr. split; [done|]. rewrite H. f_equal.
  destruct (decide (n <= length (rest r))%nat); destruct (decide (Z.of_nat n <= _)); try lia;
    f_equal; lia.
Qed.
