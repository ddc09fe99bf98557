(** Properties C15-C20: the delta file format and its recovery
    (internal/infra/delta/protocol.go, storagefactory.go Recover). *)
From Verif Require Import Base GoIO Lock Delta SpecFile SpecLock SpecDelta GoIOFacts FileBufferFacts
  CodecFacts LockFacts DeltaFacts DeltaRecoverFacts PropIO.

(** * C15 *)

(** What is written, through any working writer. *)
Theorem C15_delta_written :
  forall (W : Type) (wr : writer W) (out : W -> list byte), working_writer wr out ->
  forall w,
  (exists w', d_write_prefix wr w = (w', Ret tt) /\ out w' = out w ++ delta_magic) /\
  (forall version locked count, is_byte version -> is_byte locked -> is_u32 count ->
   exists w', d_write_header wr (DHeader version locked count) w = (w', Ret tt) /\
     out w' = out w ++ [version; locked] ++ be32 count) /\
  (forall op user item sum, is_byte op -> is_u64 user -> is_u64 item ->
   exists w', d_write_entry wr (DEntry op user item sum) w = (w', Ret tt) /\
     out w' = out w ++ op_record op user item).
Proof.
  intros W wr out Hw w. pose proof (working_writer_lawful wr out Hw) as L.
  split; [|split].
  - by apply emits_out, emits_prefix.
  - intros v l c Hv Hl Hc.
    destruct (emits_out out _ _ _ w (emits_header wr _ _ L (DHeader v l c))) as (w' & ? & E).
    exists w'. split; [done|]. rewrite E. f_equal. unfold enc_header. cbn [dh_version dh_locked dh_count].
    rewrite (be_enc_1 v), (be_enc_1 l) by done. done.
  - intros op u i s Ho Hu Hi.
    destruct (emits_out out _ _ _ w (emits_entry wr _ _ L (DEntry op u i s))) as (w' & ? & E).
    exists w'. split; [done|]. rewrite E. f_equal. by apply (enc_entry_op_record (DEntry op u i s)).
Qed.
Print Assumptions C15_delta_written.

(** What was written is read back, through any reader delivering it. *)
Theorem C15_delta_read_back :
  forall (R : Type) (rd : reader R) (rest : R -> list byte), any_reader rd rest ->
  forall r tail,
  (rest r = delta_magic ++ tail ->
   exists r', d_read_prefix rd r = (r', Ret tt) /\ rest r' = tail) /\
  (forall version locked count, is_byte version -> is_byte locked -> is_u32 count ->
   rest r = [version; locked] ++ be32 count ++ tail ->
   exists r', d_read_header rd r = (r', Ret (DHeader version locked count)) /\ rest r' = tail) /\
  (forall op user item, is_byte op -> is_u64 user -> is_u64 item ->
   rest r = op_record op user item ++ tail ->
   exists r' sum, d_read_entry rd r = (r', Ret (DEntry op user item sum)) /\ rest r' = tail /\
     validate_checksum (DEntry op user item sum) = true).
Proof.
  intros R rd rest Hr r tail. pose proof (any_reader_lawful rd rest Hr) as L.
  split; [|split].
  - intros E. destruct (follows_prefix rd _ _ _ L r I) as (r' & H & _ & Hrest & _).
    rewrite E, read_prefix_ok in *. by exists r'.
  - intros v l c Hv Hl Hc E.
    destruct (follows_header rd _ _ _ L r I) as (r' & H & _ & Hrest & _).
    rewrite E in *.
    assert (Hh := read_header_app v l (be32 c) tail eq_refl).
    change ([v; l] ++ be32 c ++ tail) with (v :: l :: be32 c ++ tail) in *.
    rewrite Hh in *. exists r'. split; [|done]. cbn [snd] in H. rewrite H.
    do 3 f_equal. rewrite (be32_enc c). by apply be_dec_enc.
  - intros op u i Ho Hu Hi E.
    destruct (follows_entry rd _ _ _ L r I) as (r' & H & _ & Hrest & _).
    rewrite E, read_entry_app in * by apply op_record_length. cbn [fst snd] in *.
    pose proof (enc_dec_record (op_record op u i) (op_record_length op u i) (op_record_bytes op u i Ho))
      as [Hchk _].
    rewrite bool_decide_true in Hchk by apply op_record_valid.
    rewrite dec_op_record in * by done.
    exists r', (byte_sum ([op] ++ be_enc 8 u ++ be_enc 8 i)). done.
Qed.
Print Assumptions C15_delta_read_back.

Example C15_case :
  op_record 43 258 (2 ^ 64 - 1) = [43; 0;0;0;0;0;0;1;2; 255;255;255;255;255;255;255;255; 38] /\
  d_write_entry into_list (DEntry 43 258 (2 ^ 64 - 1) 0) [7] =
    (7 :: op_record 43 258 (2 ^ 64 - 1), Ret tt) /\
  d_read_entry one_by_one (op_record 43 258 (2 ^ 64 - 1) ++ [7]) =
    ([7], Ret (DEntry 43 258 (2 ^ 64 - 1) 38)) /\
  length delta_magic = 8%nat /\ length (be32 5) = 4%nat /\ length (op_record 43 1 2) = 18%nat.
Proof. by vm_compute. Qed.

(** * C16 *)
Theorem C16_single_byte_corruption_detected :
  forall (op user item : Z), is_byte op -> is_u64 user -> is_u64 item ->
  forall (i : nat) (old new : byte), op_record op user item !! i = Some old -> is_byte new -> new <> old ->
  forall (R : Type) (rd : reader R) (rest : R -> list byte), any_reader rd rest ->
  forall r tail, rest r = <[i := new]> (op_record op user item) ++ tail ->
  exists r' e, d_read_entry rd r = (r', Ret e) /\ validate_checksum e = false.
Proof.
  intros op u it Ho Hu Hi i old new Hold Hnew Hne R rd rest Hr r tail E.
  pose proof (any_reader_lawful rd rest Hr) as L.
  set (rec := <[i := new]> (op_record op u it)) in *.
  assert (Hl : length rec = 18%nat) by (unfold rec; by rewrite insert_length, op_record_length).
  assert (Hb : Forall is_byte rec) by (by apply Forall_insert; [apply op_record_bytes|]).
  destruct (follows_entry rd _ _ _ L r I) as (r' & H & _ & Hrest & _).
  rewrite E, read_entry_app in H by done. exists r', (dec_entry rec). split; [done|].
  destruct (enc_dec_record rec Hl Hb) as [Hchk _]. unfold validate_checksum. rewrite Hchk.
  apply bool_decide_false. eapply corrupt_record; try done.
  - by apply op_record_bytes.
Qed.
Print Assumptions C16_single_byte_corruption_detected.

Example C16_case :
  op_record 45 1 (2 ^ 32) !! 12%nat = Some 1 /\
  (fun x => match x with (_, Ret e) => validate_checksum e | _ => true end)
    (d_read_entry one_by_one (<[12%nat := 9]> (op_record 45 1 (2 ^ 32)))) = false.
Proof. by vm_compute. Qed.

(** * C17, delta files: the lock byte is byte 9 *)
Theorem C17_delta_lock_flag : lock_flag_ok 9 d_write_locked d_is_locked.
Proof. exact (lock_flag_at 9). Qed.
Print Assumptions C17_delta_lock_flag.

(** Byte 9 is the lock field of the header. *)
Theorem C17_delta_lock_is_header_field :
  forall (R : Type) (rd : reader R) (rest : R -> list byte), any_reader rd rest ->
  forall r x d, rest r = drop 8 d -> (14 <= length d)%nat -> d !! 9%nat = Some x ->
  exists r' h, d_read_header rd r = (r', Ret h) /\ dh_locked h = x.
Proof.
  intros R rd rest Hr r x d E Hl Hx. pose proof (any_reader_lawful rd rest Hr) as L.
  destruct (follows_header rd _ _ _ L r I) as (r' & H & _ & Hrest & _).
  rewrite E in H.
  assert (E' : drop 8 d = default 0 (d !! 8%nat) :: x :: take 4 (drop 10 d) ++ drop 14 d).
  { destruct (lookup_lt_is_Some_2 d 8) as [y Hy]; [lia|].
    rewrite (drop_S d y 8) by done. rewrite (drop_S d x 9) by done. rewrite Hy. do 2 f_equal.
    replace (drop 14 d) with (drop 4 (drop 10 d)) by (by rewrite drop_drop). by rewrite take_drop. }
  rewrite E', read_header_app in H by (rewrite take_length, drop_length; lia).
  eexists _, _. split; [done|]. done.
Qed.
Print Assumptions C17_delta_lock_is_header_field.

Example C17_delta_case :
  let f := File KBuf (delta_image 0 [op_record 43 1 2]) 20 false [] [] in
  usable f /\ snd (d_is_locked f) = Ret false /\
  f_data (fst (d_write_locked true f)) = delta_image 1 [op_record 43 1 2] /\
  f_pos (fst (d_write_locked true f)) = 20%nat.
Proof. cbn zeta. split; [|by vm_compute]. split; [done|]. split; [done|]. right. vm_compute. lia. Qed.

(** * C18 *)

(** Bound: the uint32 counter of the format. *)
Theorem C18_recover_to_keeps_valid_records :
  forall (R : Type) (rd : reader R) (rest : R -> list byte), any_reader rd rest ->
  forall (k : fkind) (fuel : nat) (r : R), Forall is_byte (rest r) ->
  (length (rest r) < fuel)%nat -> Z.of_nat (length (rest r)) < 2 ^ 32 * 18 ->
  exists out, recovers_to (rest r) out /\ (forall out', recovers_to (rest r) out' -> out' = out) /\
  exists r' w, recover_to rd fuel (r, open_file k []) = ((r', w), Ret tt) /\ f_data w = out.
Proof.
  intros R rd rest Hr k fuel r Hb Hf Hl.
  destruct (recovers_exists (rest r)) as [out Hout]. exists out. split; [done|].
  split; [intros out' H'; by eapply recovers_functional|].
  destruct (recover_to_ok rd _ _ _ (any_reader_lawful rd rest Hr) k fuel r out)
    as (r' & w & H & _ & _ & _ & _ & Hd); try done.
  by exists r', w.
Qed.
Print Assumptions C18_recover_to_keeps_valid_records.

(** One good record, a damaged one, another good one, and a torn one. *)
Definition damaged_file : list byte :=
  delta_magic ++ [1; 1; 0; 0; 0; 9] ++ op_record 43 1 2 ++ <[3%nat := 77]> (op_record 43 3 4) ++
  op_record 45 5 6 ++ take 7 (op_record 43 7 8).

Example C18_case :
  recovers_to damaged_file (delta_image 0 [op_record 43 1 2; op_record 45 5 6]) /\
  f_data (snd (fst (recover_to one_by_one 100 (damaged_file, open_file KOs [])))) =
    delta_image 0 [op_record 43 1 2; op_record 45 5 6] /\
  f_data (snd (fst (recover_to one_by_one 100 ([82; 69; 67], open_file KOs [])))) = delta_image 0 [].
Proof.
  split; [|by vm_compute]. left.
  exists [1; 1; 0; 0; 0; 9], [op_record 43 1 2; <[3%nat := 77]> (op_record 43 3 4); op_record 45 5 6],
    (take 7 (op_record 43 7 8)).
  split; [done|]. split; [done|]. split; [repeat constructor; done|]. split; [vm_compute; lia|].
  by vm_compute.
Qed.

(** * C19 *)

(** Recovering a file twice is recovering it once. [frem f]: from the pointer on,
    see C20. *)
Theorem C19_recover_idempotent :
  forall (csz : nat) (f : file), usable f -> (0 < csz)%nat -> f_pos f = 0%nat ->
  Forall is_byte (f_data f) -> Z.of_nat (length (f_data f)) < 2 ^ 32 * 18 ->
  exists f1 f2, d_recover csz f = (f1, Ret tt) /\ d_recover csz f1 = (f2, Ret tt) /\
    recovers_to (f_data f) (f_data f1) /\ f_data f2 = f_data f1.
Proof.
  intros csz f (Hc & He & _) Hcsz Hp Hb Hl.
  destruct (recovers_exists (f_data f)) as [out Hout].
  assert (Hrem : frem f = f_data f) by (unfold frem; by rewrite Hp, drop_0).
  destruct (recovers_image _ _ Hout) as (recs & -> & Hg & Hn & Hbr).
  rewrite (d_recover_ok csz f (delta_image 0 recs)) by (by rewrite ?Hrem).
  eexists _, _. split; [done|]. split.
  - apply (d_recover_ok csz _ (delta_image 0 recs)); try done; unfold frem; cbn [f_pos f_data]; rewrite drop_0.
    + apply image_bytes; [done|auto].
    + rewrite image_length by done. lia.
    + rewrite <- (app_nil_r (delta_image 0 recs)) at 1. apply image_recovers; [done|cbn; lia].
  - done.
Qed.
Print Assumptions C19_recover_idempotent.

(** Recovering a file that holds only valid records keeps them all, whatever its
    lock byte. *)
Theorem C19_recover_harmless :
  forall (csz : nat) (f : file) (locked : Z) (ops : list (Z * Z * Z)),
  usable f -> (0 < csz)%nat -> f_pos f = 0%nat -> is_byte locked ->
  Forall (fun '(op, user, item) => is_byte op /\ is_u64 user /\ is_u64 item) ops ->
  Z.of_nat (length ops) < 2 ^ 31 ->
  f_data f = delta_image locked (map (fun '(op, user, item) => op_record op user item) ops) ->
  exists f', d_recover csz f = (f', Ret tt) /\
    f_data f' = delta_image 0 (map (fun '(op, user, item) => op_record op user item) ops).
Proof.
  intros csz f locked ops (Hc & He & _) Hcsz Hp Hlk Ht Hl Hd.
  set (recs := map _ ops) in *.
  assert (Hg : Forall good_record recs).
  { apply Forall_map, Forall_forall. intros [[op u] i] _. split; [apply op_record_length|apply op_record_valid]. }
  assert (Hb : Forall (Forall is_byte) recs).
  { apply Forall_map. eapply Forall_impl; [done|]. intros [[op u] i] (Ho & _). by apply op_record_bytes. }
  rewrite (d_recover_ok csz f (delta_image 0 recs)); try done.
  - eexists. done.
  - unfold frem. rewrite Hp, drop_0, Hd. by apply image_bytes.
  - unfold frem. rewrite Hp, drop_0, Hd, image_length by done. unfold recs. rewrite map_length. lia.
  - unfold frem. rewrite Hp, drop_0, Hd, <- (app_nil_r (delta_image locked recs)).
    apply image_recovers; [done|cbn; lia].
Qed.
Print Assumptions C19_recover_harmless.

Example C19_case :
  let f := open_file KOs damaged_file in
  usable f /\ Forall is_byte damaged_file /\
  f_data (fst (d_recover 8 f)) = delta_image 0 [op_record 43 1 2; op_record 45 5 6] /\
  f_data (fst (d_recover 8 (fst (d_recover 8 f)))) = delta_image 0 [op_record 43 1 2; op_record 45 5 6].
Proof.
  cbn zeta. split; [|split; [|by vm_compute]].
  - split; [done|]. split; [done|]. by left.
  - vm_compute. repeat (constructor; [split; [intros ?; discriminate|reflexivity]|]). constructor.
Qed.

(** * C20 *)

(** False: Recover reads from the current position, so a pointer that is not at the
    start loses entries (and rewrites the file without them). *)
Theorem C20_recover_any_pointer_refuted :
  exists (csz : nat) (f : file) (recs : list (list byte)), usable f /\ (0 < csz)%nat /\
    f_data f = delta_image 1 recs /\ recs = [op_record 43 1 2] /\
    exists f', d_recover csz f = (f', Ret tt) /\ f_data f' = delta_image 0 [].
Proof.
  exists 8%nat, (File KOs (delta_image 1 [op_record 43 1 2]) 14 false [] []), [op_record 43 1 2].
  split; [by repeat split; left|]. split; [lia|]. split; [done|]. split; [done|].
  eexists. split; [by vm_compute|]. done.
Qed.
Print Assumptions C20_recover_any_pointer_refuted.

(** What it does: it recovers what lies from the pointer on.  So the claim holds for
    a pointer at the start. *)
Theorem C20_recover_from_pointer_partial :
  forall (csz : nat) (f : file) (out : list byte), usable f -> (0 < csz)%nat ->
  Forall is_byte (f_data f) -> Z.of_nat (length (f_data f)) < 2 ^ 32 * 18 ->
  recovers_to (drop (f_pos f) (f_data f)) out ->
  exists f', d_recover csz f = (f', Ret tt) /\ f_data f' = out /\ f_pos f' = 0%nat.
Proof.
  intros csz f out (Hc & He & _) Hcsz Hb Hl Hout.
  rewrite (d_recover_ok csz f out); try done.
  - eexists. done.
  - by apply Forall_drop.
  - unfold frem. rewrite drop_length. lia.
Qed.
Print Assumptions C20_recover_from_pointer_partial.

Example C20_case :
  exists f', d_recover 8 (open_file KOs damaged_file) = (f', Ret tt) /\
    f_data f' = delta_image 0 [op_record 43 1 2; op_record 45 5 6].
Proof. eexists. split; [by vm_compute|]. by vm_compute. Qed.
