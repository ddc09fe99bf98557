(** Readers that report EOF together with the last bytes: C99.  (The decoders of the
    delta and index formats are proved for such readers in PropDelta.v and
    PropIndex.v.) *)
From Verif Require Import Base GoIO Delta Index Recdb Profile SpecFile SpecDelta SpecRecdb RecdbSession GoIOFacts FileBufferFacts
  RecdbFacts PropIO PropRecdb.

(** A reader that hands out all it has, at most the size of the buffer, and says EOF
    with the last byte. *)
Definition eof_with_last : reader (list byte) := fun n l =>
  match l with
  | [] => ([], ([], Some EEOF))
  | _ => (drop n l, (take n l, if (n <? length l)%nat then None else Some EEOF))
  end.

Lemma eof_with_last_any : any_reader eof_with_last (fun l => l).
Proof.
  intros n l Hn. destruct l as [|b l]; [left; split; [done|by exists []]|right].
  unfold eof_with_last. eexists _, _, _. split; [done|].
  split; [rewrite take_length; cbn [length]; lia|]. split; [by rewrite take_drop|].
  destruct (n <? length (b :: l))%nat eqn:E; [by left|right]. apply Nat.ltb_ge in E.
  split; [done|]. by apply drop_ge.
Qed.

(** The contract of SkipReading: all the bytes are there and were skipped, so there is
    no error. *)
Theorem C99_skip_refuted :
  ~ (forall (R : Type) (rd : reader R) (rest : R -> list byte), any_reader rd rest ->
     forall (n : nat) (r : R), (n <= length (rest r))%nat ->
     snd (skip_reading rd (Z.of_nat n) r) = (Z.of_nat n, None)).
Proof.
  intros H. specialize (H _ eof_with_last (fun l => l) eof_with_last_any 2%nat [7; 8]).
  vm_compute in H. by specialize (H ltac:(lia)).
Qed.
Print Assumptions C99_skip_refuted.

(** The contract of ReadEntry: an entry that is there completely is read. *)
Theorem C99_entry_refuted :
  ~ (forall (R : Type) (rd : reader R) (rest : R -> list byte), any_reader rd rest ->
     forall r s e tail, stored_typed s -> stored_fits s -> rest r = stored_bytes s ++ tail ->
     snd (r_read_entry rd (r, e)) = Ret (st_cap s)).
Proof.
  intros H.
  set (s := Stored 22 0 9 [] [] [0]).
  assert (Ht : stored_typed s).
  { unfold stored_typed, is_u32, is_u64, is_byte, s. cbn. repeat (split; [first [lia|constructor]|]). lia. }
  assert (Hf : stored_fits s) by by vm_compute.
  specialize (H _ eof_with_last (fun l => l) eof_with_last_any (stored_bytes s) s zero_entry [] Ht Hf).
  rewrite app_nil_r in H. specialize (H eq_refl). by vm_compute in H.
Qed.
Print Assumptions C99_entry_refuted.

(** SkipReading in full: the right bytes are skipped and counted, a missing byte is
    reported, and an error without a missing byte is EOF at the very end. *)
Theorem C99_skip_partial :
  forall (R : Type) (rd : reader R) (rest : R -> list byte), any_reader rd rest ->
  forall (n : nat) (r : R), exists r' x, rest r' = drop n (rest r) /\
    skip_reading rd (Z.of_nat n) r = (r', (Z.of_nat (n `min` length (rest r)), x)) /\
    ((length (rest r) < n)%nat -> x = Some EEOF) /\
    ((n < length (rest r))%nat \/ n = 0%nat -> x = None) /\
    (n = length (rest r) -> x = None \/ x = Some EEOF).
Proof.
  intros R rd rest Hr n r.
  destruct (skip_reading_any rd _ _ _ (any_reader_lawful rd rest Hr) n r I)
    as (r' & x & E & _ & Hrem & _ & H1 & H2 & H3).
  exists r', x. repeat (split; [done|]). done.
Qed.
Print Assumptions C99_skip_partial.

(** The decoders of the recdb format. An entry is lost only if it ends the stream and
    has free space; its data has been read even then. *)
Theorem C99_recdb_partial :
  forall (R : Type) (rd : reader R) (rest : R -> list byte), any_reader rd rest -> forall r tail,
  (rest r = recdb_magic ++ tail ->
   exists r', r_read_prefix rd r = (r', Ret tt) /\ rest r' = tail) /\
  (forall v t k c, length t = 8%nat -> is_u32 c ->
   rest r = [v] ++ t ++ [k] ++ be32 c ++ tail ->
   exists r', r_read_header rd r = (r', Ret (RHeader v t k c)) /\ rest r' = tail) /\
  (forall s e, stored_typed s -> stored_fits s -> rest r = stored_bytes s ++ tail ->
   exists r' o, r_read_entry rd (r, e) = ((r', entry_of s), o) /\ rest r' = tail /\
     (o = Ret (st_cap s) \/ exists x, o = Err x) /\
     (tail <> [] \/ st_free s = [] -> o = Ret (st_cap s))).
Proof.
  intros R rd rest Hr r tail. pose proof (any_reader_lawful rd rest Hr) as L.
  split; [|split].
  - intros E. destruct (follows_rprefix rd _ _ _ L r I) as (r' & H & _ & Hrest & _).
    rewrite E, rread_prefix_ok in *. by exists r'.
  - intros v t k c Ht Hc E. destruct (follows_rheader rd _ _ _ L r I) as (r' & H & _ & Hrest & _).
    rewrite E, rread_header_app in * by done. by exists r'.
  - intros s e Ht Hf E.
    destruct (read_entry_any rd _ _ _ L r e s tail I Ht Hf E) as (r' & o & H & _ & Hrest & Ho & Hn).
    exists r', o. split; [done|]. split; [done|]. split; [|done].
    destruct Ho as [-> | ->]; [by left|right; by eexists].
Qed.
Print Assumptions C99_recdb_partial.

(** Through a bufio.Reader, as the iterator reads (its buffer has 4096 bytes), every
    sequence of entries is read, whatever the reader below. *)
Fixpoint read_entries {R} (rd : reader R) (n : nat) (r : R) : R * list (rentry * outcome Z) :=
  match n with
  | O => (r, [])
  | S n =>
    let '((r', e), o) := r_read_entry rd (r, zero_entry) in
    let '(r'', l) := read_entries rd n r' in (r'', (e, o) :: l)
  end.

Theorem C99_bufio_partial :
  forall (R : Type) (rd : reader R) (rest : R -> list byte), any_reader rd rest ->
  forall size, (100 < size)%nat -> forall r l tail, Forall stored_typed l -> Forall stored_fits l ->
  rest r = concat (map stored_bytes l) ++ tail ->
  exists b, read_entries (br_read rd size) (length l) (new_breader r) =
      (b, map (fun s => (entry_of s, Ret (st_cap s))) l) /\
    br_buf b ++ rest (br_r b) = tail.
Proof.
  intros R rd rest Hr size Hsz r l tail Ht Hf E. pose proof (any_reader_lawful rd rest Hr) as L.
  assert (H : forall b, bra_ok (fun _ => True) rest b -> br_rem rest b = concat (map stored_bytes l) ++ tail ->
    exists b', read_entries (br_read rd size) (length l) b =
        (b', map (fun s => (entry_of s, Ret (st_cap s))) l) /\ br_rem rest b' = tail).
  { clear r E. induction l as [|s l IH]; intros b Hb E; [by exists b|].
    apply Forall_cons in Ht as [Hs Ht]. apply Forall_cons in Hf as [Hfs Hf].
    cbn [map concat] in E. rewrite <- app_assoc in E.
    destruct (read_entry_bufio rd _ _ _ size L Hsz b zero_entry s _ Hb Hs Hfs E) as (b1 & H1 & Hb1 & E1).
    destruct (IH Ht Hf b1 Hb1 E1) as (b2 & H2 & E2).
    exists b2. cbn [length read_entries map]. by rewrite H1, H2. }
  apply H; [|done]. split; [done|by left].
Qed.
Print Assumptions C99_bufio_partial.

Example C99_case :
  any_reader eof_with_last (fun l => l) /\
  skip_reading eof_with_last 2 [7; 8; 9] = ([9], (2, None)) /\
  skip_reading eof_with_last 3 [7; 8; 9] = ([], (3, Some EEOF)) /\
  r_read_entry eof_with_last (stored_bytes (Stored 22 0 9 [] [] [0]), zero_entry) =
    (([], REntry 22 0 (DProfile (Profile 9 [] []))), Err (EMsg "failed to read database entry")) /\
  snd (read_entries (br_read eof_with_last 101) 2
    (new_breader (stored_bytes ex_c ++ stored_bytes (Stored 22 0 9 [] [] [0])))) =
    [(entry_of ex_c, Ret 31); (REntry 22 0 (DProfile (Profile 9 [] [])), Ret 22)].
Proof. split; [apply eof_with_last_any|by vm_compute]. Qed.
