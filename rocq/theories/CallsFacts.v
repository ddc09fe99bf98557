(** How many reads, writes, truncations and closes of the file a call makes: how much of
    the script of the environment it uses up.  Proofs for PropCalls.v. *)
From Verif Require Import Base GoIO Lock Delta Index SpecFile SpecIndex CodecFacts GoIOFacts DeltaStoreFacts DeltaHistFacts IndexFacts.

(** The next [k] calls complete; after them the environment does as [snd rest] says.  The
    file is of the kind [fst rest]. *)
Definition scripted (k : nat) (rest : fkind * list fault) (f : file) : Prop :=
  f_closed f = false /\ f_env f = repeat FOk k ++ snd rest /\ f_kind f = fst rest.

Lemma fput_scripted k rest bs f : scripted k rest (fput bs f) <-> scripted k rest f.
Proof. unfold scripted, fput. destruct bs; done. Qed.

Lemma fset_pos_scripted k rest p f : scripted k rest (fset_pos p f) <-> scripted k rest f.
Proof. done. Qed.

Lemma next_scripted k rest f : scripted (S k) rest f ->
  exists f', next_fault f = (FOk, f') /\ scripted k rest f' /\ f_kind f' = f_kind f /\
    f_data f' = f_data f /\ f_pos f' = f_pos f.
Proof.
  intros (Hc & He & Hk). unfold next_fault. rewrite He. cbn [repeat app]. eexists. split; [reflexivity|].
  split; [done|]. done.
Qed.

Lemma fseek_scripted k rest o w f : scripted k rest f -> scripted k rest (fst (fseek o w f)).
Proof. intros (Hc & He & Hk). unfold fseek. rewrite Hc. 
  match goal with |- context [if ?b then _ else _] => destruct b end; done. Qed.

Lemma fseek_end_size f f' size : f_closed f = false -> fseek 0 SeekEnd f = (f', Ret size) ->
  size = Z.of_nat (length (f_data f)).
Proof.
  intros Hc E. unfold fseek in E. rewrite Hc in E. repeat case_match; try done; injection E as _ <-; lia.
Qed.

Lemma fwrite_scripted k rest bs f : scripted (S k) rest f ->
  exists f', fwrite bs f = (f', (length bs, None)) /\ scripted k rest f' /\ f_kind f' = f_kind f.
Proof.
  intros H. destruct (next_scripted k rest f H) as (f1 & E & H1 & Hk & _). unfold fwrite.
  rewrite (proj1 H), E. exists (fput bs f1). split; [done|]. split; [by apply fput_scripted|].
  rewrite <- Hk. by destruct bs.
Qed.

Lemma write_all_scripted k rest bs f : scripted (S k) rest f ->
  exists f', write_all fwrite bs f = (f', Ret tt) /\ scripted k rest f'.
Proof.
  intros H. destruct (fwrite_scripted k rest bs f H) as (f' & E & H' & _). unfold write_all. rewrite E. by exists f'.
Qed.

Lemma d_write_header_scripted k rest h f : scripted (3 + k) rest f ->
  exists f', d_write_header fwrite h f = (f', Ret tt) /\ scripted k rest f'.
Proof.
  intros H. unfold d_write_header, write_uint, iobind.
  destruct (write_all_scripted (2 + k) rest (be_enc 1 (dh_version h)) f H) as (f1 & -> & H1).
  destruct (write_all_scripted (1 + k) rest (be_enc 1 (dh_locked h)) f1 H1) as (f2 & -> & H2).
  destruct (write_all_scripted k rest (be_enc 4 (dh_count h)) f2 H2) as (f3 & -> & H3). by exists f3.
Qed.

Lemma fread_scripted k rest n f f' bs e : scripted (S k) rest f -> fread n f = (f', (bs, e)) ->
  scripted k rest f' /\ f_data f' = f_data f /\ f_pos f' = (f_pos f + length bs)%nat /\
  length bs = Nat.min n (length (f_data f) - f_pos f) /\ ((0 < n)%nat -> e = None -> bs <> []) /\
  ((0 < length bs)%nat -> e = None).
Proof.
  intros H E. destruct (next_scripted k rest f H) as (f1 & E1 & H1 & Hk & Hd & Hp). unfold fread in E.
  rewrite (proj1 H), E1 in E. rewrite <- Hd, <- Hp.
  pose proof (drop_length (f_data f1) (f_pos f1)) as Hl.
  destruct (f_kind f1), n as [|n], (drop (f_pos f1) (f_data f1)) as [|x r] eqn:Er; cbn [length] in Hl;
    injection E as <- <- <-; rewrite ?fset_pos_scripted; cbn [f_data f_pos fset_pos length take];
    rewrite ?take_length; (split; [exact H1|]); (split; [done|]); repeat split; intros; try done; try lia.
Qed.

(** ** io.ReadFull of the file itself: one call for each field *)

Lemma fread_at_end n f f' bs e : (0 < n)%nat -> (length (f_data f) <= f_pos f)%nat ->
  fread n f = (f', (bs, e)) -> bs = [] /\ e <> None.
Proof.
  intros Hn Hp E. unfold fread in E. destruct (f_closed f); [by injection E as <- <- <-|].
  unfold next_fault in E.
  destruct (f_env f) as [|[|j] r]; cbn [f_data f_pos f_kind] in E;
    rewrite (drop_ge (f_data f) (f_pos f)) in E by lia; rewrite ?take_nil in E;
    destruct (f_kind f), n; try lia; injection E as <- <- <-; done.
Qed.

Lemma read_full_loop_more {R} (rd : reader R) fuel n acc r : (length acc < n)%nat ->
  read_full_loop rd (S fuel) n acc r =
  let '(r', (bs, e)) := rd (n - length acc)%nat r in
  match e with
  | None => read_full_loop rd fuel n (acc ++ bs) r'
  | Some e =>
    if (n <=? length (acc ++ bs))%nat then (r', Ret (acc ++ bs))
    else match e, acc ++ bs with
         | EEOF, _ :: _ => (r', Err EUnexpectedEOF)
         | _, _ => (r', Err e)
         end
  end.
Proof. intros H. cbn [read_full_loop]. by rewrite (proj2 (Nat.leb_gt _ _)) by lia. Qed.

Lemma read_full_loop_done {R} (rd : reader R) fuel n acc r : (n <= length acc)%nat ->
  read_full_loop rd fuel n acc r = (r, Ret acc).
Proof. intros H. destruct fuel; cbn [read_full_loop]; by rewrite (proj2 (Nat.leb_le _ _)) by lia. Qed.

Lemma read_full_scripted k rest n f f' bs : (0 < n)%nat -> scripted (S k) rest f ->
  read_full fread n f = (f', Ret bs) -> scripted k rest f' /\ length bs = n.
Proof.
  intros Hn H E. unfold read_full in E. destruct n as [|n]; [lia|].
  rewrite read_full_loop_more in E by (cbn; lia). cbn [length] in E. rewrite Nat.sub_0_r in E.
  destruct (fread (S n) f) as [f1 [b1 e1]] eqn:E1. change ([] ++ b1) with b1 in E.
  destruct (fread_scripted k rest (S n) f f1 b1 e1 H E1) as (H1 & Hd & Hp & Hl & _ & He).
  destruct (decide (length b1 = S n)) as [Hb|Hb].
  - rewrite (He ltac:(lia)) in E. rewrite read_full_loop_done in E by lia. injection E as <- <-. done.
  - exfalso. assert (length b1 <= n)%nat as Hs by lia.
    destruct e1 as [e|].
    + rewrite (proj2 (Nat.leb_gt _ _)) in E by lia. destruct e, b1; done.
    + destruct n as [|n]; [cbn [read_full_loop] in E; rewrite (proj2 (Nat.leb_gt _ _)) in E by lia; done|].
      rewrite read_full_loop_more in E by lia.
      destruct (fread (S (S n) - length b1)%nat f1) as [f2 [b2 e2]] eqn:E2.
      apply fread_at_end in E2 as [-> He2]; [|lia|rewrite Hd; lia]. destruct e2 as [e2|]; [|done].
      rewrite app_nil_r in E. rewrite (proj2 (Nat.leb_gt _ _)) in E by lia. destruct e2, b1; done.
Qed.

Lemma read_uint_scripted k rest n f f' z : (0 < n)%nat -> scripted (S k) rest f ->
  read_uint fread n f = (f', Ret z) -> scripted k rest f'.
Proof.
  intros Hn H E. unfold read_uint, iobind in E. destruct (read_full fread n f) as [f1 o] eqn:E1.
  destruct o; try done. injection E as <- _. by apply (read_full_scripted k rest) in E1 as [? _].
Qed.

Lemma d_read_entry_scripted k rest f f' e : scripted (4 + k) rest f ->
  d_read_entry fread f = (f', Ret e) -> scripted k rest f'.
Proof.
  intros H E. unfold d_read_entry, iobind in E.
  destruct (read_uint fread 1 f) as [f1 []] eqn:E1; try done. apply (read_uint_scripted (3 + k) rest) in E1; [|lia|done].
  destruct (read_uint fread 8 f1) as [f2 []] eqn:E2; try done. apply (read_uint_scripted (2 + k) rest) in E2; [|lia|done].
  destruct (read_uint fread 8 f2) as [f3 []] eqn:E3; try done. apply (read_uint_scripted (1 + k) rest) in E3; [|lia|done].
  destruct (read_uint fread 1 f3) as [f4 []] eqn:E4; try done. apply (read_uint_scripted k rest) in E4; [|lia|done].
  by injection E as <- _.
Qed.

Lemma load_entries_scripted k rest n : forall c f f' c', scripted (4 * n + k) rest f ->
  load_entries fread n c f = (f', Ret c') -> scripted k rest f'.
Proof.
  induction n as [|n IH]; intros c f f' c' H E; cbn [load_entries] in E.
  - by injection E as <- _.
  - unfold iobind, iomaperr in E. destruct (d_read_entry fread f) as [f1 []] eqn:E1; try done.
    apply (d_read_entry_scripted (4 * n + k) rest) in E1; [|by replace (4 + (4 * n + k))%nat with (4 * S n + k)%nat by lia].
    exact (IH _ _ _ _ E1 E).
Qed.

Lemma write_locked_scripted k rest off b f f' : scripted (S k) rest f ->
  write_locked_at off b f = (f', Ret tt) -> scripted k rest f'.
Proof.
  intros H E. unfold write_locked_at, iobind in E.
  destruct (fseek 0 SeekCurrent f) as [f1 []] eqn:E1; try done.
  pose proof (fseek_scripted _ _ 0 SeekCurrent _ H) as H1. rewrite E1 in H1. cbn [fst] in H1.
  destruct (fseek off SeekStart f1) as [f2 []] eqn:E2; try done.
  pose proof (fseek_scripted _ _ off SeekStart _ H1) as H2. rewrite E2 in H2. cbn [fst] in H2.
  destruct (fwrite_scripted k rest [if b then 1 else 0] f2 H2) as (f3 & E3 & H3 & _).
  unfold write_all in E. rewrite E3 in E.
  destruct (fseek a SeekStart f3) as [f4 []] eqn:E4; try done.
  pose proof (fseek_scripted _ _ a SeekStart _ H3) as H4. rewrite E4 in H4. cbn [fst] in H4.
  by injection E as <-.
Qed.

Lemma fseek_os k rest o f : 0 <= o -> scripted k (KOs, rest) f ->
  exists f', fseek o SeekStart f = (f', Ret o) /\ scripted k (KOs, rest) f'.
Proof.
  intros Ho (Hc & He & Hk). unfold fseek. rewrite Hc, Hk. cbn [fst].
  rewrite (proj2 (Z.ltb_ge _ _)) by lia. eexists. split; [reflexivity|]. done.
Qed.

Lemma write_locked_os k rest off b f : 0 <= off -> scripted (S k) (KOs, rest) f ->
  exists f', write_locked_at off b f = (f', Ret tt) /\ scripted k (KOs, rest) f'.
Proof.
  intros Ho H. unfold write_locked_at, iobind.
  assert (exists f1, fseek 0 SeekCurrent f = (f1, Ret (Z.of_nat (f_pos f))) /\ scripted (S k) (KOs, rest) f1) as (f1 & -> & H1).
  { destruct H as (Hc & He & Hk). unfold fseek. rewrite Hc, Hk. cbn [fst].
    rewrite (proj2 (Z.ltb_ge _ _)) by lia. rewrite Z.add_0_r. eexists. split; [reflexivity|]. done. }
  destruct (fseek_os _ _ off f1 Ho H1) as (f2 & -> & H2).
  destruct (write_all_scripted k _ [if b then 1 else 0] f2 H2) as (f3 & -> & H3).
  destruct (fseek_os _ _ (Z.of_nat (f_pos f)) f3 ltac:(lia) H3) as (f4 & -> & H4).
  by exists f4.
Qed.

Lemma d_load_scripted k rest f f' c n : scripted (2 + 4 * Z.to_nat n + k) rest f ->
  d_load fread f = (f', Ret (c, n)) -> scripted k rest f'.
Proof.
  intros H E. unfold d_load, iobind, d_read_prefix, d_read_header, iobind in E.
  destruct (read_full fread (length delta_prefix) f) as [f1 []] eqn:E1; try done.
  apply (read_full_scripted (1 + 4 * Z.to_nat n + k) rest) in E1 as [H1 _]; [|vm_compute; lia|done].
  case_bool_decide; [|done]. cbn [ioret] in E.
  destruct (read_full fread (Z.to_nat delta_header_size) f1) as [f2 []] eqn:E2; try done.
  apply (read_full_scripted (4 * Z.to_nat n + k) rest) in E2 as [H2 _]; [|vm_compute; lia|done].
  cbn [ioret] in E. case_match; [done|].
  match type of E with context [load_entries fread (Z.to_nat ?m) _ _] => destruct (load_entries fread (Z.to_nat m) ∅ f2) as [f3 []] eqn:E3; try done end.
  cbn [ioret] in E. injection E as <- <- <-. by apply (load_entries_scripted k rest) in E3.
Qed.

(** Open of an existing delta file. *)
Lemma d_open_scripted rest f f' s : f_data f <> [] ->
  scripted (3 + 4 * Z.to_nat (d_total_count s)) rest f ->
  d_open f = (f', Ret s) -> f_env f' = snd rest /\ f_env (ds_file s) = snd rest.
Proof.
  intros Hd H E. unfold d_open, iobind, iomaperr in E.
  destruct (fseek 0 SeekEnd f) as [f1 [size| | |]] eqn:E1; try done.
  pose proof (fseek_scripted _ _ 0 SeekEnd _ H) as H1. rewrite E1 in H1. cbn [fst] in H1.
  assert (size =? 0 = false) as Hs.
  { rewrite (fseek_end_size _ _ _ (proj1 H) E1). destruct (f_data f); [done|]. cbn [length]. apply Z.eqb_neq. lia. }
  rewrite Hs in E.
  destruct (fseek 0 SeekStart f1) as [f2 []] eqn:E2; try done.
  pose proof (fseek_scripted _ _ 0 SeekStart _ H1) as H2. rewrite E2 in H2. cbn [fst] in H2.
  destruct (d_load fread f2) as [f3 [[c n]| | |]] eqn:E3; try done.
  unfold d_write_locked in E.
  destruct (write_locked_at delta_locked_offset true f3) as [f4 [[]| | |]] eqn:E4; try done.
  cbn [fst snd] in E. injection E as <- <-. unfold d_total_count in H2. cbn [ds_total] in H2.
  apply (d_load_scripted 1 rest) in E3; [|by replace (2 + 4 * Z.to_nat n + 1)%nat with (3 + 4 * Z.to_nat n)%nat by lia].
  apply (write_locked_scripted 0 rest) in E4 as (_ & E4 & _); [|done]. done.
Qed.

(** Open of an empty one. *)
Lemma d_open_new_scripted rest f f' s : f_data f = [] -> scripted 5 rest f ->
  d_open f = (f', Ret s) -> f_env f' = snd rest /\ f_env (ds_file s) = snd rest.
Proof.
  intros Hd H E. unfold d_open, iobind, iomaperr in E.
  destruct (fseek 0 SeekEnd f) as [f1 [size| | |]] eqn:E1; try done.
  pose proof (fseek_scripted _ _ 0 SeekEnd _ H) as H1. rewrite E1 in H1. cbn [fst] in H1.
  assert (size =? 0 = true) as Hs.
  { by rewrite (fseek_end_size _ _ _ (proj1 H) E1), Hd. }
  rewrite Hs in E. unfold d_write_prefix in E.
  destruct (write_all_scripted 4 rest delta_prefix f1 H1) as (f2 & E2 & H2). rewrite E2 in E.
  destruct (d_write_header_scripted 1 rest (DHeader delta_version 0 0) f2 H2) as (f5 & E5 & H5). rewrite E5 in E.
  cbn [ioret] in E. unfold d_write_locked in E.
  destruct (write_locked_at delta_locked_offset true f5) as [f6 [[]| | |]] eqn:E6; try done.
  injection E as <- <-. by apply (write_locked_scripted 0 rest) in E6 as (_ & E6 & _).
Qed.

(** ** bufio.Writer: one call for each full buffer *)

(** The number of blocks of [size] bytes that [n] bytes take. *)
Definition blocks (size n : nat) : nat := ((n + (size - 1)) / size)%nat.

Lemma blocks_spec size n c : (0 < size)%nat -> (n <= c * size)%nat -> (c * size < n + size)%nat -> blocks size n = c.
Proof.
  intros Hs H1 H2. unfold blocks. symmetry. apply (Nat.div_unique _ _ _ (n + (size - 1) - size * c)%nat); lia.
Qed.

(** [t] bytes have been given to the writer, [c] calls made. *)
Definition bw_at (size k : nat) (rest : fkind * list fault) (t : nat) (b : bwriter file) : Prop :=
  bw_err b = None /\ exists c, scripted (k - c) rest (bw_w b) /\ (c <= k)%nat /\
  (c * size + length (bw_buf b) = t)%nat /\ (length (bw_buf b) <= size)%nat /\
  (bw_buf b = [] -> t = 0%nat).

Lemma bw_at_new size k rest f : scripted k rest f -> bw_at size k rest 0 (new_bwriter f).
Proof.
  intros H. split; [done|]. exists 0%nat. cbn [new_bwriter bw_w bw_buf length].
  rewrite Nat.sub_0_r. split; [done|]. lia.
Qed.

Lemma bw_flush_full k rest w buf : (0 < length buf)%nat -> scripted (S k) rest w ->
  exists w', bw_flush fwrite (BWriter w buf None) = (BWriter w' [] None, Ret tt) /\ scripted k rest w'.
Proof.
  intros Hb H. unfold bw_flush. cbn [bw_err bw_buf bw_w]. destruct buf as [|x buf]; [cbn in Hb; lia|].
  destruct (fwrite_scripted k rest (x :: buf) w H) as (w' & -> & H' & _).
  rewrite Nat.ltb_irrefl. by exists w'.
Qed.

Lemma bw_write_at size k rest t p b : (0 < length p <= size)%nat -> (t + length p <= k * size)%nat ->
  bw_at size k rest t b ->
  exists b', write_all (bw_write fwrite size) p b = (b', Ret tt) /\ bw_at size k rest (t + length p) b'.
Proof.
  intros Hp Ht [He (c & Hs & Hc & Hl & Hb & H0)]. destruct b as [w buf e]. cbn [bw_err bw_w bw_buf] in *. subst e.
  unfold write_all, bw_write. replace (length p + 2)%nat with (S (S (length p))) by lia.
  cbn [bw_write_loop bw_err bw_w bw_buf].
  destruct (length p <=? size - length buf)%nat eqn:E.
  - apply Nat.leb_le in E. eexists. split; [reflexivity|]. split; [done|]. exists c. cbn [bw_w bw_buf].
    rewrite app_length. split; [done|]. split; [done|]. split; [lia|]. split; [lia|].
    intros Hn. apply app_eq_nil in Hn as [_ ->]. cbn in Hp. lia.
  - apply Nat.leb_gt in E. destruct buf as [|x buf]; [cbn [length] in E; lia|].
    set (av := (size - length (x :: buf))%nat) in *.
    assert (length ((x :: buf) ++ take av p) = size) as Hsz by (rewrite app_length, take_length; lia).
    assert (c < k)%nat as Hck.
    { apply Nat.nle_gt. intros Hk. assert (c = k) as -> by lia. lia. }
    destruct (bw_flush_full (k - S c) rest w ((x :: buf) ++ take av p)) as (w' & Ew & Hw'); [lia|by replace (S (k - S c)) with (k - c)%nat by lia|].
    rewrite Ew. cbn [bw_err bw_buf bw_w length]. rewrite drop_length, Nat.sub_0_r.
    rewrite (proj2 (Nat.leb_le _ _)) by lia. eexists. split; [reflexivity|]. split; [done|].
    exists (S c). cbn [bw_w bw_buf app]. rewrite drop_length. split; [done|]. split; [lia|]. split; [|split; [lia|]].
    + unfold av. lia.
    + intros Hn. apply (f_equal length) in Hn. rewrite drop_length in Hn. cbn in Hn. lia.
Qed.

Lemma bw_flush_at size rest t b : (0 < size)%nat -> bw_at size (blocks size t) rest t b ->
  exists f, bw_flush fwrite b = (BWriter f [] None, Ret tt) /\ scripted 0 rest f.
Proof.
  intros Hsz [He (c & Hs & Hc & Hl & Hb & H0)]. destruct b as [w buf e]. cbn [bw_err bw_w bw_buf] in *. subst e.
  destruct buf as [|x buf].
  - rewrite (H0 eq_refl) in *. rewrite (blocks_spec size 0 0) in Hs by lia. exists w. done.
  - rewrite (blocks_spec size t (S c)) in Hs by (cbn [length] in *; lia).
    replace (S c - c)%nat with 1%nat in Hs by lia.
    destruct (bw_flush_full 0 rest w (x :: buf)) as (w' & Ew & Hw'); [cbn; lia|done|]. by exists w'.
Qed.

Lemma blocks_fits size t : (0 < size)%nat -> (t <= blocks size t * size)%nat.
Proof.
  intros Hs. unfold blocks. pose proof (Nat.div_mod (t + (size - 1)) size ltac:(lia)) as H.
  pose proof (Nat.mod_upper_bound (t + (size - 1)) size ltac:(lia)). lia.
Qed.

Lemma write_uint_at size k rest t n z b : (0 < n <= size)%nat -> (t + n <= k * size)%nat ->
  bw_at size k rest t b ->
  exists b', write_uint (bw_write fwrite size) n z b = (b', Ret tt) /\ bw_at size k rest (t + n) b'.
Proof.
  intros Hn Ht Hb. unfold write_uint. pose proof (be_enc_length n z) as Hl.
  destruct (bw_write_at size k rest t (be_enc n z) b) as (b' & E & H); [lia|lia|done|].
  exists b'. split; [done|]. by rewrite Hl in H.
Qed.

Ltac write_at Hb := match type of Hb with bw_at ?size ?k ?rest ?t ?b =>
  match goal with |- context [write_uint (bw_write fwrite size) ?n ?z b] =>
    let b' := fresh "b" in let E := fresh "E" in let H := fresh "Hb" in
    destruct (write_uint_at size k rest t n z b) as (b' & E & H); [lia|lia|exact Hb|rewrite E; clear E Hb; rename H into Hb]
  end end.

Lemma d_write_header_at size k rest t h b : (8 <= size)%nat -> (t + 6 <= k * size)%nat -> bw_at size k rest t b ->
  exists b', d_write_header (bw_write fwrite size) h b = (b', Ret tt) /\ bw_at size k rest (t + 6) b'.
Proof.
  intros Hs Ht Hb. unfold d_write_header, iobind. write_at Hb. write_at Hb. write_at Hb.
  eexists. split; [reflexivity|]. by replace (t + 6)%nat with (t + 1 + 1 + 4)%nat by lia.
Qed.

Lemma d_write_entry_at size k rest t e b : (8 <= size)%nat -> (t + 18 <= k * size)%nat -> bw_at size k rest t b ->
  exists b', d_write_entry (bw_write fwrite size) e b = (b', Ret tt) /\ bw_at size k rest (t + 18) b'.
Proof.
  intros Hs Ht Hb. unfold d_write_entry, iobind. write_at Hb. write_at Hb. write_at Hb. write_at Hb.
  eexists. split; [reflexivity|]. by replace (t + 18)%nat with (t + 1 + 8 + 8 + 1)%nat by lia.
Qed.

Lemma flush_loop_at size k rest l : (8 <= size)%nat -> forall t b c,
  (t + 18 * length l <= k * size)%nat -> bw_at size k rest t b ->
  exists b' c', flush_loop size l (b, c) = ((b', c'), Ret tt) /\ bw_at size k rest (t + 18 * length l) b'.
Proof.
  intros Hs. induction l as [|[u d] l IH]; intros t b c Ht Hb; cbn [flush_loop length] in *.
  - exists b, c. split; [done|]. by replace (t + 18 * 0)%nat with t by lia.
  - unfold iobind, on_fst, iomaperr.
    destruct (d_write_entry_at size k rest t (DEntry (id_op d) u (id_item d) 0) b) as (b1 & -> & Hb1); [done|lia|done|].
    destruct (IH (t + 18)%nat b1 (cache_add c u d)) as (b2 & c2 & -> & Hb2); [lia|done|].
    exists b2, c2. split; [done|]. by replace (t + 18 * S (length l))%nat with (t + 18 + 18 * length l)%nat by lia.
Qed.

(** ** Flush and Close of the delta storage *)

(** The operations added since the last Flush. *)
Definition pending_count (s : dstore) : nat := length (concat (map snd (map_to_list (ds_new s)))).

Lemma length_visit sh s : length (visit sh (ds_new s)) = pending_count s.
Proof.
  rewrite visit_length. unfold pend, pending_count.
  induction (map_to_list (ds_new s)) as [|[u d] l IH]; [done|].
  cbn [map concat snd]. by rewrite !app_length, map_length, IH.
Qed.

(** A bufio.Writer that is used and flushed. *)
Lemma with_bufio_scripted size k rest t m f : (0 < size)%nat -> scripted (blocks size t + k) rest f ->
  (forall b r, bw_at size (blocks size t) r 0 b -> exists b', m b = (b', Ret tt) /\ bw_at size (blocks size t) r t b') ->
  exists f', with_bufio (run m; bw_flush fwrite) f = (f', Ret tt) /\ scripted k rest f'.
Proof.
  intros Hs Hf Hm. unfold with_bufio, iobind.
  assert (scripted (blocks size t) (fst rest, repeat FOk k ++ snd rest) f) as Hf'.
  { destruct Hf as (Hc & He & Hk). split; [done|]. split; [|done]. rewrite He, repeat_app, <- app_assoc. done. }
  destruct (Hm (new_bwriter f) _ (bw_at_new _ _ _ _ Hf')) as (b1 & E1 & H1). rewrite E1.
  destruct (bw_flush_at size _ t b1 Hs H1) as (f2 & E2 & H2). rewrite E2. exists f2. split; [done|].
  destruct H2 as (Hc & He & Hk). done.
Qed.

Lemma d_flush_scripted size k rest sh s : (8 <= size)%nat ->
  scripted (1 + blocks size (18 * pending_count s) + k) rest (ds_file s) ->
  exists s', d_flush size sh s = (s', Ret tt) /\ scripted k rest (ds_file s').
Proof.
  intros Hs H. unfold d_flush, iobind, iomaperr at 1.
  assert (exists s1, flush_header size s = (s1, Ret tt) /\ ds_new s1 = ds_new s /\
    scripted (blocks size (18 * pending_count s) + k) rest (ds_file s1)) as (s1 & E1 & Hn & H1).
  { set (hdr := DHeader delta_version 1 (u32 (ds_total s))).
    pose proof (fseek_scripted _ _ delta_prefix_len SeekStart _ H) as H0.
    destruct (with_bufio_scripted size (blocks size (18 * pending_count s) + k) rest 6
      (iomaperr (fun _ => EMsg "failed to write header") (d_write_header (bw_write fwrite size) hdr))
      (fst (fseek delta_prefix_len SeekStart (ds_file s)))) as (f1 & E1 & H1); [lia| | |].
    - by rewrite (blocks_spec size 6 1) by lia.
    - intros b r Hb. unfold iomaperr.
      destruct (d_write_header_at size (blocks size 6) r 0 hdr b) as (b1 & -> & Hb1); [done|rewrite (blocks_spec size 6 1); lia|done|].
      by exists b1.
    - exists (DStore (ds_cache s) (ds_new s) (ds_total s) (ds_unflushed s) f1). split; [|done].
      unfold flush_header, on_dfile. fold hdr. unfold iobind at 1. unfold ignore.
      unfold with_bufio in *. unfold iobind in *. unfold iomaperr in *.
      match type of E1 with context [match d_write_header ?w ?h ?b with _ => _ end] => destruct (d_write_header w h b) as [b1 []] eqn:Eh end; try done.
      destruct (bw_flush fwrite b1) as [b2 []] eqn:Ef; injection E1 as <-; try done. by subst. }
  rewrite E1. unfold iomaperr, flush_entries, iobind, on_fst, iomaperr.
  set (t := (18 * pending_count s)%nat) in *.
  set (f := fst (fseek 0 SeekEnd (ds_file s1))).
  assert (scripted (blocks size t) (fst rest, repeat FOk k ++ snd rest) f) as Hf'.
  { unfold f. apply fseek_scripted. destruct H1 as (Hc & He & Hk). split; [done|]. split; [|done]. rewrite He, repeat_app, <- app_assoc. done. }
  destruct (flush_loop_at size (blocks size t) (fst rest, repeat FOk k ++ snd rest) (visit sh (ds_new s1)) Hs 0 (new_bwriter f) (ds_cache s1)) as (b1 & c1 & E2 & H2).
  { rewrite Hn, length_visit. apply blocks_fits. lia. } { by apply bw_at_new. }
  rewrite E2. rewrite Hn, length_visit in H2. change (0 + 18 * pending_count s)%nat with t in H2.
  destruct (bw_flush_at size _ t b1 ltac:(lia) H2) as (f2 & E3 & H3). rewrite E3.
  eexists. split; [reflexivity|]. cbn [ds_file bw_w]. destruct H3 as (Hc & He & Hk). done.
Qed.

Lemma d_close_scripted size rest sh s : (8 <= size)%nat -> f_kind (ds_file s) = KOs -> f_closed (ds_file s) = false ->
  f_env (ds_file s) = repeat FOk (3 + blocks size (18 * pending_count s)) ++ rest ->
  exists s', d_close size sh s = (s', Ret tt) /\ f_env (ds_file s') = rest /\ f_closed (ds_file s') = true.
Proof.
  intros Hs Hk Hc He. unfold d_close, iobind, iomaperr.
  destruct (d_flush_scripted size 2 (KOs, rest) sh s Hs) as (s1 & -> & H1).
  { split; [done|]. split; [|done]. rewrite He. cbn [snd]. do 2 f_equal. lia. }
  unfold on_dfile at 1, d_write_locked.
  destruct (write_locked_os 1 rest delta_locked_offset false (ds_file s1)) as (f2 & -> & H2); [done|done|].
  unfold on_dfile. cbn [ds_file ds_cache ds_new ds_total ds_unflushed]. destruct H2 as (Hc2 & He2 & Hk2).
  cbn [fst snd repeat app] in *. unfold fclose. rewrite Hk2, Hc2. unfold next_fault. rewrite He2.
  eexists. split; [reflexivity|]. done.
Qed.

(** ** bufio.Reader: one call for each buffer *)

(** [t] bytes have been taken from the reader, [c] calls made. *)
Definition br_at (size k : nat) (rest : fkind * list fault) (t : nat) (b : breader file) : Prop :=
  br_err b = None /\ exists c, scripted (k - c) rest (br_r b) /\ (c <= k)%nat /\
  (t <= c * size < t + size)%nat /\
  ((t + length (br_buf b) = c * size)%nat \/
   ((length (f_data (br_r b)) <= f_pos (br_r b))%nat /\ (t + length (br_buf b) <= c * size)%nat)).

Lemma br_at_new size k rest f : (0 < size)%nat -> scripted k rest f -> br_at size k rest 0 (new_breader f).
Proof.
  intros Hs H. split; [done|]. exists 0%nat. cbn [new_breader br_r br_buf length].
  rewrite Nat.sub_0_r. split; [done|]. split; [lia|]. split; [lia|]. left. lia.
Qed.

Lemma br_read_at size k rest t n b b' bs e : (0 < n < size)%nat -> (t + n <= k * size)%nat ->
  br_at size k rest t b -> br_read fread size n b = (b', (bs, e)) ->
  (e = None /\ br_at size k rest (t + length bs) b' /\ (0 < length bs <= n)%nat) \/ (bs = [] /\ e <> None).
Proof.
  intros Hn Ht [He (c & Hs & Hc & Hl & Hb)] E. destruct b as [f buf er]. cbn [br_err br_r br_buf] in *. subst er.
  unfold br_read in E. destruct n as [|n]; [lia|]. cbn [br_err br_r br_buf] in E. destruct buf as [|x buf].
  - cbn [length] in Hb. rewrite (proj2 (Nat.leb_gt _ _)) in E by lia.
    destruct (fread size f) as [f1 [b1 e1]] eqn:E1.
    destruct (decide (length (f_data f) <= f_pos f)%nat) as [Hend|Hend].
    { apply fread_at_end in E1 as [-> He1]; [|lia|done]. injection E as <- <- <-. by right. }
    destruct Hb as [Hb|Hb]; [|lia].
    assert (c < k)%nat as Hck by (apply Nat.nle_gt; intros Hk; assert (c = k) as -> by lia; lia).
    replace (k - c)%nat with (S (k - S c)) in Hs by lia.
    destruct (fread_scripted _ _ _ _ _ _ _ Hs E1) as (H1 & Hd & Hp & Hlen & _ & He1).
    destruct b1 as [|y b1]; [cbn [length] in Hlen; lia|].
    rewrite (He1 ltac:(cbn [length]; lia)) in E. injection E as <- <- <-.
    pose proof (take_length (y :: b1) (S n)) as Htl. pose proof (drop_length (y :: b1) (S n)) as Hdl.
    change (y :: take n b1) with (take (S n) (y :: b1)). change (drop n b1) with (drop (S n) (y :: b1)).
    remember (y :: b1) as b0 eqn:Eb. assert (0 < length b0)%nat as Hb0 by (subst b0; cbn [length]; lia).
    left. split; [done|]. split; [|lia]. split; [done|]. exists (S c). cbn [br_r br_buf].
    split; [done|]. split; [lia|]. split; [lia|].
    destruct (decide (length b0 = size)) as [Hfull|Hshort]; [left; lia|right; split; [rewrite Hd; lia|lia]].
  - injection E as <- <- <-.
    pose proof (take_length (x :: buf) (S n)) as Htl. pose proof (drop_length (x :: buf) (S n)) as Hdl.
    change (x :: take n buf) with (take (S n) (x :: buf)). change (drop n buf) with (drop (S n) (x :: buf)).
    remember (x :: buf) as b0 eqn:Eb. assert (0 < length b0)%nat as Hb0 by (subst b0; cbn [length]; lia).
    left. split; [done|]. split; [|lia]. split; [done|]. exists c. cbn [br_r br_buf].
    split; [done|]. split; [done|]. split; [lia|]. destruct Hb as [Hb|[Hb1 Hb2]]; [left; lia|right; split; [done|lia]].
Qed.

Lemma br_read_full_at size k rest n : (n < size)%nat -> forall fuel acc t b b' l,
  (length acc <= n)%nat -> (t + (n - length acc) <= k * size)%nat -> br_at size k rest t b ->
  read_full_loop (br_read fread size) fuel n acc b = (b', Ret l) ->
  br_at size k rest (t + (n - length acc)) b' /\ length l = n.
Proof.
  intros Hn. induction fuel as [|fuel IH]; intros acc t b b' l Ha Ht Hb E.
  - cbn [read_full_loop] in E. destruct (n <=? length acc)%nat eqn:En; [|done]. apply Nat.leb_le in En.
    injection E as <- <-. replace (t + (n - length acc))%nat with t by lia. split; [done|lia].
  - destruct (decide (length acc = n)) as [Hd|Hd].
    { rewrite read_full_loop_done in E by lia. injection E as <- <-.
      replace (t + (n - length acc))%nat with t by lia. done. }
    rewrite read_full_loop_more in E by lia.
    destruct (br_read fread size (n - length acc)%nat b) as [b1 [bs e]] eqn:E1.
    destruct (br_read_at size k rest t (n - length acc) b b1 bs e ltac:(lia) Ht Hb E1) as [(-> & H1 & Hl)|[-> He]].
    + destruct (IH (acc ++ bs) (t + length bs)%nat b1 b' l) as [H2 H3]; [rewrite app_length; lia|rewrite app_length; lia|done|done|].
      rewrite app_length in H2. split; [|done].
      by replace (t + (n - length acc))%nat with (t + length bs + (n - (length acc + length bs)))%nat by lia.
    + destruct e as [e|]; [|done]. rewrite app_nil_r in E.
      rewrite (proj2 (Nat.leb_gt _ _)) in E by lia. destruct e, acc; done.
Qed.

Lemma br_read_uint_at size k rest t n b b' z : (n < size)%nat -> (t + n <= k * size)%nat -> br_at size k rest t b ->
  read_uint (br_read fread size) n b = (b', Ret z) -> br_at size k rest (t + n) b'.
Proof.
  intros Hn Ht Hb E. unfold read_uint, iobind, read_full in E.
  destruct (read_full_loop (br_read fread size) n n [] b) as [b1 []] eqn:E1; try done. injection E as <- _.
  apply (br_read_full_at size k rest n Hn n [] t) in E1 as [H1 _]; [|cbn; lia|cbn [length]; lia|done].
  cbn [length] in H1. by rewrite Nat.sub_0_r in H1.
Qed.

Lemma i_load_entries_at size k rest n : (8 < size)%nat -> forall m t b b' m',
  (t + 16 * n <= k * size)%nat -> br_at size k rest t b ->
  i_load_entries (br_read fread size) n m b = (b', Ret m') -> br_at size k rest (t + 16 * n) b'.
Proof.
  intros Hs. induction n as [|n IH]; intros m t b b' m' Ht Hb E; cbn [i_load_entries] in E.
  - injection E as <- _. by replace (t + 16 * 0)%nat with t by lia.
  - unfold iobind, iomaperr, i_read_entry, iobind in E.
    destruct (read_uint (br_read fread size) 8 b) as [b1 []] eqn:E1; try done.
    apply (br_read_uint_at size k rest t) in E1; [|lia|lia|done].
    destruct (read_uint (br_read fread size) 8 b1) as [b2 []] eqn:E2; try done.
    apply (br_read_uint_at size k rest (t + 8)) in E2; [|lia|lia|done].
    cbn [ioret] in E. apply (IH _ (t + 8 + 8)%nat) in E; [|lia|done].
    by replace (t + 16 * S n)%nat with (t + 8 + 8 + 16 * n)%nat by lia.
Qed.

(** ** Open and Close of the index storage *)

Lemma read_full_buf size n f buf e : (0 < n <= length buf)%nat ->
  read_full (br_read fread size) n (BReader f buf e) = (BReader f (drop n buf) e, Ret (take n buf)).
Proof.
  intros Hn. unfold read_full. destruct n as [|n]; [lia|]. rewrite read_full_loop_more by (cbn; lia).
  cbn [length]. rewrite Nat.sub_0_r. unfold br_read. cbn [br_buf br_r br_err].
  destruct buf as [|x buf]; [cbn in Hn; lia|]. rewrite read_full_loop_done; [done|].
  rewrite app_length, take_length. cbn [length] in *. lia.
Qed.

Lemma read_full_fill size n k rest f X : (0 < n < size)%nat -> scripted (S k) rest f ->
  X = take size (drop (f_pos f) (f_data f)) -> (n <= length X)%nat ->
  exists f1, fread size f = (f1, (X, None)) /\
  read_full (br_read fread size) n (new_breader f) = (BReader f1 (drop n X) None, Ret (take n X)).
Proof.
  intros Hn H HX HnX. destruct (next_scripted k rest f H) as (f1 & E1 & H1 & Hk & Hd & Hp).
  assert (fread size f = (fset_pos (f_pos f1 + length X) f1, (X, None))) as Ef.
  { unfold fread. rewrite (proj1 H), E1, Hd, Hp, <- HX. destruct size as [|size]; [lia|].
    destruct (drop (f_pos f) (f_data f)) as [|x r]; [subst X; cbn in HnX; lia|].
    by destruct (f_kind f1). }
  eexists. split; [exact Ef|]. unfold read_full. destruct n as [|n]; [lia|]. rewrite read_full_loop_more by (cbn; lia).
  cbn [length]. rewrite Nat.sub_0_r. unfold br_read, new_breader. cbn [br_buf br_r br_err].
  rewrite (proj2 (Nat.leb_gt _ _)) by lia. rewrite Ef.
  destruct X as [|x X]; [cbn in HnX; lia|]. rewrite read_full_loop_done; [done|].
  rewrite app_length, take_length. cbn [length] in *. lia.
Qed.

Lemma write_locked_keeps off b f f' : f_closed f = false -> 0 <= off -> (Z.to_nat off < length (f_data f))%nat ->
  write_locked_at off b f = (f', Ret tt) -> length (f_data f') = length (f_data f) /\ f_pos f' = f_pos f.
Proof.
  intros Hc Ho Hl E. unfold write_locked_at, iobind, write_all in E.
  destruct (fseek 0 SeekCurrent f) as [f1 []] eqn:E1; try done.
  assert (f1 = f /\ a = Z.of_nat (f_pos f)) as [-> ->].
  { unfold fseek in E1. rewrite Hc in E1.
    match type of E1 with (if ?b then _ else _) = _ => destruct b end; [done|]. injection E1 as <- <-.
    rewrite Z.add_0_r, Nat2Z.id. by destruct f. }
  destruct (fseek off SeekStart f) as [f2 []] eqn:E2; try done.
  assert (f2 = fset_pos (Z.to_nat off) f) as ->.
  { unfold fseek in E2. rewrite Hc in E2.
    match type of E2 with (if ?b then _ else _) = _ => destruct b end; [done|]. by injection E2 as <- _. }
  destruct (fwrite [if b then 1 else 0] (fset_pos (Z.to_nat off) f)) as [f3 [n3 e3]] eqn:E3.
  destruct e3; [done|].
  assert (length (f_data f3) = length (f_data f) /\ f_closed f3 = false) as [H3 Hc3].
  { unfold fwrite in E3. cbn [fset_pos f_closed] in E3. rewrite Hc in E3. unfold next_fault in E3.
    cbn [f_env fset_pos f_kind f_data f_pos f_closed f_log] in E3.
    destruct (f_env f) as [|[|j] r]; [| |by destruct j]; injection E3 as <- _; cbn [fput f_data f_closed f_pos];
      (split; [|done]); unfold splice; rewrite !app_length, take_length, app_length, drop_length; cbn [length]; lia. }
  destruct (fseek (Z.of_nat (f_pos f)) SeekStart f3) as [f4 []] eqn:E4; try done.
  injection E as <-. unfold fseek in E4. rewrite Hc3 in E4.
  match type of E4 with (if ?b then _ else _) = _ => destruct b end; [done|]. injection E4 as <- _.
  cbn [fset_pos f_data f_pos]. by rewrite Nat2Z.id.
Qed.

Lemma scripted_split j k rest f : scripted (j + k) rest f <-> scripted j (fst rest, repeat FOk k ++ snd rest) f.
Proof. unfold scripted. cbn [fst snd]. by rewrite repeat_app, <- app_assoc. Qed.

Lemma br_at_done size rest t b : (0 < size)%nat -> br_at size (blocks size t) rest t b -> scripted 0 rest (br_r b).
Proof.
  intros Hs (_ & c & H & Hc & Ht & _). rewrite (blocks_spec size t c) in H by lia. by rewrite Nat.sub_diag in H.
Qed.

Lemma i_load_scripted size k rest v l tail f f' m : (12 < size)%nat -> (Z.of_nat (length l) < 2 ^ 32) ->
  f_data f = index_image v l ++ tail ->
  scripted (1 + blocks size (12 + 16 * length l) + k) rest f -> i_load size f = (f', Ret m) -> scripted k rest f'.
Proof.
  intros Hs Hn Hd H E. set (K := blocks size (12 + 16 * length l)) in *.
  assert (12 + 16 * length l <= K * size)%nat as HK by (apply blocks_fits; lia).
  assert (1 <= K)%nat as HK1 by (destruct K; lia).
  unfold i_load, iobind in E. destruct (fseek 0 SeekStart f) as [f0 []] eqn:E0; try done.
  assert (f0 = fset_pos 0 f) as ->.
  { unfold fseek in E0. rewrite (proj1 H) in E0.
    match type of E0 with (if ?b then _ else _) = _ => destruct b end; [done|]. by injection E0 as <- _. }
  set (body := concat (map index_pair l) ++ tail).
  set (hd := [82; 69; 67; 73; 68; 88; 1; v] ++ be32 (Z.of_nat (length l))).
  assert (f_data f = hd ++ body) as Hdata.
  { rewrite Hd. unfold index_image, hd, body, index_magic. by rewrite <- !app_assoc. }
  set (X := take size (drop (f_pos (fset_pos 0 f)) (f_data (fset_pos 0 f)))).
  assert (length hd = 12%nat) as Hhd by done.
  assert (X = hd ++ take (size - 12) body) as HX.
  { unfold X. cbn [fset_pos f_pos f_data]. rewrite drop_0, Hdata. rewrite (take_app_ge hd body size) by lia. by rewrite Hhd. }
  assert (length X = Nat.min size (length (f_data f))) as HXl by (unfold X; cbn [fset_pos f_pos f_data]; by rewrite drop_0, take_length).
  assert (12 <= length X)%nat as HX12 by (rewrite HX, app_length; lia).
  destruct (read_full_fill size 6 (K + k) rest (fset_pos 0 f) X) as (f1 & E1 & ER); [lia|exact H|done|lia|].
  unfold with_breader, iomaperr, iobind in E. unfold i_read_prefix, iobind in E.
  change (length index_prefix) with 6%nat in E. rewrite ER in E.
  destruct (bool_decide _); [|done]. cbn [ioret] in E.
  unfold i_read_header, iobind in E. change (Z.to_nat index_header_size) with 6%nat in E.
  rewrite read_full_buf in E by (rewrite drop_length; lia). cbn [ioret ih_locked ih_count] in E.
  assert (be_dec (take 4 (drop 2 (take 6 (drop 6 X)))) = Z.of_nat (length l)) as Hcnt.
  { rewrite HX. transitivity (be_dec (be_enc 4 (Z.of_nat (length l)))); [reflexivity|]. apply be_dec_enc. cbn. lia. }
  rewrite Hcnt, Nat2Z.id in E.
  destruct (negb _); [done|].
  unfold under_reader in E. cbn [br_r br_buf br_err] in E. unfold i_write_locked in E.
  destruct (write_locked_at index_locked_offset true f1) as [f2 [[]| | |]] eqn:E2; try done.
  destruct (fread_scripted (K + k) rest size (fset_pos 0 f) f1 X None H E1) as (H1 & Hd1 & Hp1 & _).
  cbn [fset_pos f_data f_pos] in Hd1, Hp1.
  destruct (write_locked_keeps index_locked_offset true f1 f2) as [Hd2 Hp2]; [exact (proj1 H1)|vm_compute; discriminate|change (Z.to_nat index_locked_offset) with 7%nat; rewrite Hd1, Hdata, app_length, Hhd; lia|exact E2|].
  apply (write_locked_scripted (K - 1 + k) rest) in E2; [|by replace (S (K - 1 + k)) with (K + k)%nat by lia].
  apply scripted_split in E2.
  destruct (i_load_entries (br_read fread size) (length l) ∅ (BReader f2 (drop 6 (drop 6 X)) None)) as [b3 []] eqn:E3; try done.
  injection E as <- _.
  apply (i_load_entries_at size K (fst rest, repeat FOk k ++ snd rest) (length l) ltac:(lia) ∅ 12) in E3; [|done|].
  { apply br_at_done in E3; [|lia]. by destruct E3 as (Hc3 & He3 & Hk3). }
  split; [done|]. exists 1%nat. cbn [br_r br_buf]. split; [done|]. split; [done|]. split; [lia|].
  rewrite !drop_length, Hd2, Hp2, Hd1, Hp1.
  destruct (decide (length X = size)); [left; lia|right; lia].
Qed.

Lemma i_open_scripted bsz size c rest v l tail f f' s : (12 < size)%nat -> (Z.of_nat (length l) < 2 ^ 32) ->
  f_data f = index_image v l ++ tail ->
  scripted (1 + blocks size (12 + 16 * length l)) rest f ->
  i_open bsz size c f = (f', Ret s) -> f_env (is_file s) = snd rest.
Proof.
  intros Hs Hn Hd H E. unfold i_open, iobind, closing, iomaperr in E.
  destruct (fseek 0 SeekEnd f) as [f1 [n| | |]] eqn:E1; try done.
  pose proof (fseek_scripted _ _ 0 SeekEnd _ H) as H1. rewrite E1 in H1. cbn [fst] in H1.
  assert (0 <? n = true) as Hlt.
  { rewrite (fseek_end_size _ _ _ (proj1 H) E1), Hd. unfold index_image, index_magic. apply Z.ltb_lt. cbn [app length]. lia. }
  rewrite Hlt in E.
  assert (f_data f1 = f_data f) as Hd1.
  { unfold fseek in E1. rewrite (proj1 H) in E1.
    match type of E1 with (if ?b then _ else _) = _ => destruct b end; [done|]. by injection E1 as <- _. }
  destruct (i_load size f1) as [f2 []] eqn:E2; try done. injection E as <- <-. cbn [is_file].
  apply (i_load_scripted size 0 rest v l tail) in E2 as (_ & He & _); [done|done|done|congruence|].
  by rewrite Nat.add_0_r.
Qed.

Lemma i_write_header_at size k rest t h b : (8 <= size)%nat -> (t + 6 <= k * size)%nat -> bw_at size k rest t b ->
  exists b', i_write_header (bw_write fwrite size) h b = (b', Ret tt) /\ bw_at size k rest (t + 6) b'.
Proof.
  intros Hs Ht Hb. unfold i_write_header, iobind. write_at Hb. write_at Hb. write_at Hb.
  eexists. split; [reflexivity|]. by replace (t + 6)%nat with (t + 1 + 1 + 4)%nat by lia.
Qed.

Lemma i_write_entries_at size k rest l : (8 <= size)%nat -> forall t b,
  (t + 16 * length l <= k * size)%nat -> bw_at size k rest t b ->
  exists b', i_write_entries (bw_write fwrite size) l b = (b', Ret tt) /\ bw_at size k rest (t + 16 * length l) b'.
Proof.
  intros Hs. induction l as [|[u d] l IH]; intros t b Ht Hb; cbn [i_write_entries length] in *.
  - exists b. split; [done|]. by replace (t + 16 * 0)%nat with t by lia.
  - unfold iobind, iomaperr, i_write_entry, iobind. cbn [ie_id ie_index]. write_at Hb. write_at Hb.
    destruct (IH (t + 8 + 8)%nat b1) as (b2 & -> & Hb2); [lia|done|].
    exists b2. split; [done|]. by replace (t + 16 * S (length l))%nat with (t + 8 + 8 + 16 * length l)%nat by lia.
Qed.

Lemma i_close_scripted size rest sh s : (8 <= size)%nat -> is_closer s = true ->
  f_kind (is_file s) = KOs -> f_closed (is_file s) = false ->
  f_env (is_file s) = repeat FOk (2 + blocks size (16 * base.size (is_map s))) ++ rest ->
  exists s', i_close size sh s = (s', Ret tt) /\ f_env (is_file s') = rest /\ f_closed (is_file s') = true.
Proof.
  intros Hs Hcl Hk Hc He. set (t := (16 * base.size (is_map s))%nat) in *.
  assert (scripted (1 + (blocks size t + 1)) (KOs, rest) (is_file s)) as H.
  { split; [done|]. split; [|done]. rewrite He. cbn [snd]. do 2 f_equal. lia. }
  unfold i_close. rewrite Hcl. unfold iobind.
  destruct (fseek_os _ _ index_prefix_len _ ltac:(done) H) as (f1 & E1 & H1).
  assert (exists f2, i_save_header size false (is_map s) true (is_file s) = (f2, Ret tt) /\ scripted (blocks size t + 1) (KOs, rest) f2) as (f2 & E2 & H2).
  { unfold i_save_header, iobind, closing, iomaperr. rewrite E1. unfold with_bufio, closing_bw.
    assert (blocks size (0 + 6) = 1%nat) as H6 by (apply blocks_spec; lia).
    rewrite <- H6 in H1 at 1. apply scripted_split in H1. apply (bw_at_new size) in H1.
    destruct (i_write_header_at size (blocks size (0 + 6)) _ 0 (IHeader index_version 0 (u32 (Z.of_nat (base.size (is_map s))))) (new_bwriter f1) Hs ltac:(lia) H1) as (b1 & -> & Hb1).
    apply bw_flush_at in Hb1 as (f2 & -> & H2); [|lia]. exists f2. split; [done|]. by apply scripted_split in H2. }
  unfold closing at 1. rewrite E2.
  assert (exists f3, i_save_entries size sh (is_map s) f2 = (f3, Ret tt) /\ scripted 1 (KOs, rest) f3) as (f3 & E3 & H3).
  { unfold i_save_entries, iobind, iomaperr.
    destruct (fseek_os _ _ index_entries_offset _ ltac:(done) H2) as (f3 & -> & H3). unfold with_bufio.
    apply scripted_split in H3. apply (bw_at_new size) in H3.
    destruct (i_write_entries_at size (blocks size t) (KOs, repeat FOk 1 ++ rest) (shuf sh (map_to_list (is_map s))) Hs 0 (new_bwriter f3)) as (b1 & -> & Hb1); [rewrite saved_length; apply blocks_fits; lia|exact H3|].
    rewrite saved_length in Hb1. apply bw_flush_at in Hb1 as (f4 & -> & H4); [|lia]. exists f4. split; [done|]. by apply (scripted_split 0 1 (KOs, rest)). }
  unfold closing. rewrite E3. destruct H3 as (Hc3 & He3 & Hk3). cbn [fst snd repeat app] in *.
  unfold fclose. rewrite Hk3, Hc3. unfold next_fault. rewrite He3. eexists. split; [reflexivity|]. done.
Qed.
