(** Proofs about several iterators on one file. *)
From Verif Require Import Base GoIO Lock Profile Recdb SpecFile SpecLock SpecRecdb RecdbSession RecdbShare
  GoIOFacts CodecFacts LockFacts FileBufferFacts DeltaFacts RecdbFacts.

(** The file is still the one of the database, wherever it is positioned. *)
Definition kept (f0 f : file) : Prop := healthy f /\ fframe f = fframe f0.

Lemma kept_at tail l f0 f k it : kept f0 f -> it_at tail l f k it -> it_at tail l f0 k it /\ kept f0 (it_file it).
Proof.
  intros [Hh Hf] H. split.
  - destruct H as [H1 H2 H3 H4 H5 H6 H7]. split; [done|done|by rewrite H3|done..].
  - split; [|by rewrite (ia_frame _ _ _ _ _ H)]. apply (ia_ok _ _ _ _ _ H).
Qed.

Lemma kept_database hdr l tail f0 f : database hdr l tail f0 -> kept f0 f -> database hdr l tail f.
Proof.
  intros (? & Hd & ?) [_ Hf]. destruct (fframe_fields _ _ Hf) as (Hdat & _). split; [done|]. by rewrite Hdat.
Qed.

(** Rewind makes any iterator begin again, whatever happened to the position of the file. *)
Lemma rewind_on hdr l tail f it : healthy f -> database hdr l tail f ->
  rh_count (it_header it) = Z.of_nat (length l) ->
  exists it', r_rewind (it_on f it) = (it', Ret tt) /\ it_at tail l f 0 it'.
Proof.
  intros Hh (Hl & Hd & _ & _) Hc. unfold r_rewind. change recdb_entries_offset with (Z.of_nat 19).
  change (it_file (it_on f it)) with f.
  rewrite usable_placed_seek; [|done|rewrite Hd, app_length, Hl; lia].
  eexists. split; [reflexivity|].
  split; cbn [it_header it_reader it_index it_entry it_on].
  - split; [|done]. split; [by apply fset_pos_healthy|]. cbn. rewrite Hd, app_length, Hl. lia.
  - unfold br_rem. cbn [new_breader br_buf br_r app]. unfold frem. cbn [fset_pos f_pos f_data].
    rewrite Hd, drop_app_alt by done. by rewrite drop_0.
  - done.
  - done.
  - lia.
  - done.
  - lia.
Qed.

Definition counts (l : list stored) (its : list iter) : Prop :=
  Forall (fun it => rh_count (it_header it) = Z.of_nat (length l)) its.

Lemma open_all_ok v t l tail f0 n : length t = 8%nat -> is_u32 (Z.of_nat (length l)) ->
  database (recdb_header v t 0 (Z.of_nat (length l))) l tail f0 -> forall f, kept f0 f ->
  exists f' its, r_open_all n f = (f', Ret its) /\ length its = n /\ kept f0 f' /\ counts l its.
Proof.
  intros Ht Hn Hdb. induction n as [|n IH]; intros f Hk.
  - exists f, []. repeat (split; [done|]). constructor.
  - destruct (new_iterator_ok v t l tail f Ht Hn) as (it & E & H & _); [apply Hk|by eapply kept_database|].
    destruct (kept_at _ _ _ _ _ _ Hk H) as [H0 Hk'].
    destruct (IH (it_file it) Hk') as (f' & its & E' & Hl & Hk2 & Hc).
    exists f', (it :: its). cbn [r_open_all]. rewrite E, E'. split; [done|]. split; [cbn; lia|]. split; [done|].
    constructor; [|done]. apply (ia_count _ _ _ _ _ H).
Qed.

Lemma turn_ok rsz hdr l tail f0 i ops f its : (0 < rsz)%nat -> database hdr l tail f0 -> kept f0 f -> counts l its ->
  (i < length its)%nat ->
  exists f' its', r_turn rsz i (OpRewind :: ops) (f, its) = ((f', its'), ADone :: iterate l 0 ops) /\
    kept f0 f' /\ counts l its' /\ length its' = length its.
Proof.
  intros Hr Hdb Hk Hc Hi. unfold r_turn. cbn [fst snd].
  destruct (lookup_lt_is_Some_2 _ _ Hi) as [it Hit]. rewrite Hit.
  assert (Hct : rh_count (it_header it) = Z.of_nat (length l)) by (eapply Forall_lookup_1 in Hc; [exact Hc|done]).
  destruct (rewind_on hdr l tail f it) as (it1 & E1 & H1); [apply Hk|by eapply kept_database|done|].
  cbn [r_ops r_op]. rewrite E1.
  destruct (ops_at rsz hdr l tail f Hr (kept_database _ _ _ _ _ Hdb Hk) ops 0 it1 H1) as (it2 & E2 & H2).
  rewrite E2. destruct (kept_at _ _ _ _ _ _ Hk H2) as [_ Hk2].
  eexists _, _. split; [reflexivity|]. split; [done|]. split; [|by rewrite insert_length].
  apply Forall_insert; [done|]. apply (ia_count _ _ _ _ _ H2).
Qed.

Lemma turns_ok rsz hdr l tail f0 n turns : (0 < rsz)%nat -> database hdr l tail f0 -> forall f its, kept f0 f ->
  counts l its -> length its = n -> Forall (fun t => (t.1 < n)%nat) turns ->
  r_turns rsz (map (fun t => (t.1, OpRewind :: t.2)) turns) (f, its) = map (fun t => ADone :: iterate l 0 t.2) turns.
Proof.
  intros Hr Hdb. induction turns as [|[i ops] turns IH]; intros f its Hk Hc Hl Ht; [done|].
  apply Forall_cons in Ht as [Hi Ht]. cbn [fst] in Hi. cbn [map r_turns fst snd].
  destruct (turn_ok rsz hdr l tail f0 i ops f its) as (f' & its' & E & Hk' & Hc' & Hl'); [done..|lia|].
  rewrite E. f_equal. apply IH; [done|done|lia|done].
Qed.
