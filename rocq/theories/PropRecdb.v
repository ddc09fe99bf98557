(** Recdb files and their iterator: C17 (recdb), C35-C41. *)
From Verif Require Import Base GoIO Lock Profile Recdb SpecFile SpecLock SpecRecdb RecdbSession
  GoIOFacts CodecFacts LockFacts FileBufferFacts DeltaFacts RecdbFacts PropIO.

(** * C17, recdb *)
Theorem C17_recdb_lock_flag : lock_flag_ok 14 r_write_locked r_is_locked.
Proof. apply (lock_flag_at 14). Qed.
Print Assumptions C17_recdb_lock_flag.

Example C17_recdb_case :
  let f := File KOs (recdb_image 1 []) 3 false [] [] in
  usable f /\ r_is_locked f = (f, Ret true) /\
  f_data (fst (r_write_locked false f)) = recdb_image 0 [].
Proof. split; [split; [done|split; [done|by left]]|done]. Qed.

(** Entries used in the examples: capacities 45 and 29. *)
Definition ex_a : stored := Stored 45 0 7 [1; 2] [3] [].
Definition ex_b : stored := Stored 29 1 8 [] [4] [].
Definition ex_b' : stored := Stored 29 0 9 [] [5] [].
Definition ex_c : stored := Stored 31 0 9 [] [5] [0; 0].

Lemma ex_a_ok : stored_typed ex_a /\ stored_fits ex_a.
Proof.
  split; [|done]. repeat (split; [done|]). split; [|split; [|done]].
  - by repeat (apply Forall_cons; split; [done|]).
  - by repeat (apply Forall_cons; split; [done|]).
Qed.
Lemma ex_b_ok : stored_typed ex_b /\ stored_fits ex_b.
Proof.
  split; [|done]. repeat (split; [done|]). split; [by constructor|]. split; [|done].
  by repeat (apply Forall_cons; split; [done|]).
Qed.
Lemma ex_b'_ok : stored_typed ex_b' /\ stored_fits ex_b'.
Proof.
  split; [|done]. repeat (split; [done|]). split; [by constructor|]. split; [|done].
  by repeat (apply Forall_cons; split; [done|]).
Qed.

(** * C35 *)
Theorem C35_recdb_written :
  forall (W : Type) (wr : writer W) (out : W -> list byte), working_writer wr out -> forall w,
  (exists w', r_write_prefix wr w = (w', Ret tt) /\ out w' = out w ++ recdb_magic) /\
  (forall v t k c, exists w', r_write_header wr (RHeader v t k c) w = (w', Ret tt) /\
     out w' = out w ++ [v] ++ t ++ [k] ++ be32 c) /\
  (forall s, stored_typed s -> stored_fits s -> Forall (fun b => b = 0) (st_free s) ->
   exists w', r_write_entry wr (entry_of s) w = (w', Ret (st_cap s)) /\
     out w' = out w ++ stored_bytes s).
Proof.
  intros W wr out Hw w. pose proof (working_writer_lawful wr out Hw) as L.
  split; [|split].
  - apply emits_out. apply emits_maperr. by apply emits_write_all.
  - intros v t k c. apply emits_out. apply emits_maperr. by apply emits_write_all.
  - intros s Ht Hf Hz. apply emits_out.
    pose proof (emits_entry wr _ _ s L (proj1 (proj2 Ht))) as E. by rewrite padded_zeros in E.
Qed.
Print Assumptions C35_recdb_written.

Theorem C35_recdb_read_back :
  forall (R : Type) (rd : reader R) (rest : R -> list byte), stream_reader rd rest -> forall r tail,
  (rest r = recdb_magic ++ tail ->
   exists r', r_read_prefix rd r = (r', Ret tt) /\ rest r' = tail) /\
  (forall v t k c, length t = 8%nat -> is_u32 c ->
   rest r = [v] ++ t ++ [k] ++ be32 c ++ tail ->
   exists r', r_read_header rd r = (r', Ret (RHeader v t k c)) /\ rest r' = tail) /\
  (forall s e, stored_typed s -> stored_fits s -> rest r = stored_bytes s ++ tail ->
   exists r', r_read_entry rd (r, e) = ((r', entry_of s), Ret (st_cap s)) /\ rest r' = tail).
Proof.
  intros R rd rest Hr r tail. pose proof (stream_reader_lawful rd rest Hr) as L.
  split; [|split].
  - intros E. destruct (follows_rprefix rd _ _ _ L r I) as (r' & H & _ & Hrest & _).
    rewrite E, rread_prefix_ok in *. by exists r'.
  - intros v t k c Ht Hc E. destruct (follows_rheader rd _ _ _ L r I) as (r' & H & _ & Hrest & _).
    rewrite E, rread_header_app in * by done. by exists r'.
  - intros s e Ht Hf E. destruct (follows_rentry rd _ _ _ L r e I) as (r' & e' & o & H & _ & Hp & _).
    rewrite E, read_entry_app in Hp by done. injection Hp as Hrest <- <-. by exists r'.
Qed.
Print Assumptions C35_recdb_read_back.

(** Anything that does not start with the magic is refused. *)
Theorem C35_recdb_prefix_checked :
  forall (R : Type) (rd : reader R) (rest : R -> list byte), any_reader rd rest ->
  forall r, take 5 (rest r) <> recdb_magic -> exists r' e, r_read_prefix rd r = (r', Err e).
Proof.
  intros R rd rest Hr r Hne. pose proof (any_reader_lawful rd rest Hr) as L.
  destruct (follows_rprefix rd _ _ _ L r I) as (r' & H & _ & _).
  destruct (rread_prefix_bad _ Hne) as (l' & e & E). rewrite E in H. eauto.
Qed.
Print Assumptions C35_recdb_prefix_checked.

Example C35_case :
  r_write_entry into_list (REntry 31 0 (DProfile (Profile 9 [] [5]))) [7] = (7 :: stored_bytes ex_c, Ret 31) /\
  r_read_entry one_by_one (stored_bytes ex_c ++ [7], zero_entry) =
    (([7], REntry 31 0 (DProfile (Profile 9 [] [5]))), Ret 31).
Proof. by vm_compute. Qed.

(** * C36 *)

(** 37 bytes are written for a capacity of 29, and success is reported. *)
Theorem C36_write_entry_stays_inside_refuted :
  ~ (forall (W : Type) (wr : writer W) (out : W -> list byte), working_writer wr out ->
     forall e w w' n, re_data e <> DNil -> r_write_entry wr e w = (w', Ret n) ->
     Z.of_nat (length (out w')) = Z.of_nat (length (out w)) + re_cap e).
Proof.
  intros H. assert (Hw : working_writer into_list (fun l => l)) by (intros bs w; eexists; done).
  specialize (H _ into_list (fun l => l) Hw (REntry 29 0 (DProfile (Profile 1 [2] [3]))) []).
  vm_compute in H. by specialize (H _ _ ltac:(done) eq_refl).
Qed.
Print Assumptions C36_write_entry_stays_inside_refuted.

(** Exactly Capacity bytes if the data fits; otherwise all of the data, silently.  In
    both cases Capacity is reported as the number of bytes. *)
Theorem C36_write_entry_stays_inside_partial :
  forall (W : Type) (wr : writer W) (out : W -> list byte), working_writer wr out -> forall s w,
  stored_typed s -> st_free s = [] ->
  exists w' k, r_write_entry wr (entry_of s) w = (w', Ret (st_cap s)) /\
    out w' = out w ++ stored_bytes s ++ replicate k 0 /\
    Z.of_nat (length (stored_bytes s ++ replicate k 0)) =
      Z.max (st_cap s) (Z.of_nat (length (stored_bytes s))).
Proof.
  intros W wr out Hw s w Ht Hfr. pose proof (working_writer_lawful wr out Hw) as L.
  destruct (emits_out out (r_write_entry wr (entry_of s)) (stored_bytes (padded s)) (st_cap s) w) as (w' & E & Ho).
  { apply emits_entry; [done|]. apply Ht. }
  exists w'. eexists (Z.to_nat (st_cap s - 5 - like_size (Profile (st_user s) (st_likes s) (st_dislikes s)))).
  split; [done|]. split.
  - rewrite Ho. unfold padded, stored_bytes. cbn [st_cap st_deleted st_free]. rewrite Hfr, app_nil_r.
    by rewrite <- !app_assoc.
  - rewrite app_length, replicate_length. rewrite Nat2Z.inj_add, stored_bytes_length, Hfr. cbn [length]. lia.
Qed.
Print Assumptions C36_write_entry_stays_inside_partial.

Example C36_case : stored_typed ex_a /\ st_free ex_a = [] /\
  length (fst (r_write_entry into_list (entry_of ex_a) [])) = 45%nat.
Proof. split; [apply ex_a_ok|by vm_compute]. Qed.

(** * C37 *)

(** A capacity of 0 and 21 bytes of header and data: accepted, 21 bytes consumed. *)
Theorem C37_read_entry_fits_refuted :
  ~ (forall (R : Type) (rd : reader R) (rest : R -> list byte), stream_reader rd rest ->
     forall r e r' e' n, Forall is_byte (rest r) -> r_read_entry rd (r, e) = ((r', e'), Ret n) ->
     rest r' = drop (Z.to_nat (re_cap e')) (rest r) /\ 21 <= re_cap e').
Proof.
  intros H. specialize (H _ one_by_one (fun l => l) (proj1 C14_case) (zeros 21) zero_entry).
  vm_compute in H. destruct (H _ _ _ ltac:(by repeat constructor) eq_refl) as [_ H']. done.
Qed.
Print Assumptions C37_read_entry_fits_refuted.

(** For every byte stream: ReadEntry fails, or the stream began with an entry, which
    is what it returns and consumes; if the capacity is at least 5, the entry has
    exactly that many bytes. *)
Theorem C37_read_entry_fits_partial :
  forall (R : Type) (rd : reader R) (rest : R -> list byte), stream_reader rd rest ->
  forall r e, Forall is_byte (rest r) ->
  (exists r' e' x, r_read_entry rd (r, e) = ((r', e'), Err x)) \/
  (exists s r', r_read_entry rd (r, e) = ((r', entry_of s), Ret (st_cap s)) /\
     stored_typed s /\ rest r = stored_bytes s ++ rest r' /\
     (5 <= st_cap s -> stored_fits s)).
Proof.
  intros R rd rest Hr r e Hb. pose proof (stream_reader_lawful rd rest Hr) as L.
  destruct (follows_rentry rd _ _ _ L r e I) as (r' & e' & o & H & _ & Hp & _).
  destruct (read_entry_inv (rest r) e Hb) as [(l' & e2 & x & E) | (s & l' & Ht & El & E & Hc)]; rewrite E in Hp.
  - injection Hp as _ <- <-. left. eauto.
  - injection Hp as Hl <- <-. right. exists s, r'. split; [done|]. split; [done|].
    rewrite <- Hl. split; [done|]. intros H5. destruct Hc as [[_ ?] | [? _]]; [done|lia].
Qed.
Print Assumptions C37_read_entry_fits_partial.

(** A capacity of 0 to 4 lets any data through (below 4 GB), and the entry is then
    longer than its capacity. *)
Theorem C37_small_capacity_accepted :
  forall (R : Type) (rd : reader R) (rest : R -> list byte), stream_reader rd rest ->
  forall r e s tail, stored_typed s -> st_cap s < 5 -> st_free s = [] ->
  Z.of_nat (length (stored_bytes s)) <= 2 ^ 32 -> rest r = stored_bytes s ++ tail ->
  exists r', r_read_entry rd (r, e) = ((r', entry_of s), Ret (st_cap s)) /\ rest r' = tail.
Proof.
  intros R rd rest Hr r e s tail Ht Hc Hfr Hl E. pose proof (stream_reader_lawful rd rest Hr) as L.
  destruct (follows_rentry rd _ _ _ L r e I) as (r' & e' & o & H & _ & Hp & _).
  rewrite stored_bytes_length, Hfr in Hl. cbn [length] in Hl.
  assert (0 <= st_cap s) by apply Ht.
  rewrite E, read_entry_small in Hp by (done || lia). injection Hp as Hrest <- <-. by exists r'.
Qed.
Print Assumptions C37_small_capacity_accepted.

Example C37_case :
  snd (r_read_entry one_by_one (stored_bytes (Stored 28 0 9 [] [5] []), zero_entry)) =
    Err (EMsg "failed to read database entry") /\
  snd (r_read_entry one_by_one (stored_bytes (Stored 4 0 9 [] [5] []), zero_entry)) = Ret 4.
Proof. by vm_compute. Qed.

(** * C38 *)
Theorem C38_predicted_capacity_suffices :
  forall s, stored_typed s -> st_free s = [] ->
  exists size cap, r_predict_entry_size (entry_of s) = Ret size /\
    r_predict_entry_capacity (entry_of s) = Ret cap /\
    size = Z.of_nat (length (stored_bytes s)) /\ size <= cap /\ 245 <= cap /\
    (** at most half of the space is left free beyond the minimum *)
    (245 <= size -> cap <= size + size / 2) /\
    (** the entry, written with that capacity, takes exactly that much *)
    (cap < 2 ^ 32 -> forall (W : Type) (wr : writer W) (out : W -> list byte), working_writer wr out ->
       forall w, exists w' bs,
       r_write_entry wr (REntry cap (st_deleted s) (re_data (entry_of s))) w = (w', Ret cap) /\
       out w' = out w ++ bs /\ Z.of_nat (length bs) = cap).
Proof.
  intros s Ht Hfr. destruct s as [c d u l dl fr]. cbn [st_free] in Hfr. subst fr.
  set (p := Profile u l dl). pose proof (like_size_ge p) as Hge.
  assert (Hsz : Z.of_nat (length (stored_bytes (Stored c d u l dl []))) = like_size p + 5).
  { rewrite stored_bytes_length. cbn [st_user st_likes st_dislikes st_free length]. fold p. lia. }
  assert (exists cap, r_predict_entry_capacity (entry_of (Stored c d u l dl [])) = Ret cap /\ like_size p + 5 <= cap /\
    245 <= cap /\ (245 <= like_size p + 5 -> cap <= like_size p + 5 + (like_size p + 5) / 2))
    as (cap & Ec & H1 & H2 & H3).
  { unfold r_predict_entry_capacity, r_predict_entry_size. cbn [entry_of re_data st_user st_likes st_dislikes r_predict_data_size].
    fold p. change min_entry_capacity with 245. change entry_header_size with 5.
    destruct (like_size p + 5 <? 245) eqn:E.
    - apply Z.ltb_lt in E. eexists. split; [done|]. lia.
    - apply Z.ltb_ge in E. eexists. split; [done|]. rewrite Z.quot_div_nonneg by lia.
      pose proof (Z.div_pos (like_size p + 5) 2). lia. }
  exists (like_size p + 5), cap. split; [done|]. split; [done|]. split; [done|]. split; [done|]. split; [done|].
  split; [done|]. intros Hc W wr out Hw w.
  destruct (C36_write_entry_stays_inside_partial W wr out Hw (Stored cap d u l dl []) w) as (w' & k & E & Ho & Hn).
  { split; [unfold is_u32; cbn [st_cap]; lia|]. apply Ht. }
  { done. }
  exists w'. eexists. split; [exact E|]. split; [exact Ho|]. rewrite Hn. cbn [st_cap].
  rewrite stored_bytes_length. cbn [st_user st_likes st_dislikes st_free length]. fold p. lia.
Qed.
Print Assumptions C38_predicted_capacity_suffices.

Example C38_case : r_predict_entry_capacity (entry_of ex_a) = Ret 245 /\
  r_predict_entry_capacity (REntry 0 0 (DProfile (Profile 1 (seqZ 0 30) []))) = Ret 391.
Proof. by vm_compute. Qed.

(** * C39 *)
Theorem C39_iterator_enumerates :
  forall rsz f l tail, (0 < rsz)%nat -> usable f ->
  Forall stored_typed l -> Forall stored_fits l -> Z.of_nat (length l) < 2 ^ 32 ->
  f_data f = recdb_image 0 l ++ tail ->
  exists it, r_new_iterator f = (it_file it, Ret it) /\
    forall ops, let '(it', answers) := r_ops rsz ops it in
      answers = iterate l 0 ops /\ f_data (it_file it') = f_data f.
Proof.
  intros rsz f l tail Hr (Hc & He & _) Hty Hfi Hn Hd.
  assert (Hdb : database (recdb_header 1 like_type 0 (Z.of_nat (length l))) l tail f).
  { split; [done|]. split; [|done]. rewrite Hd. unfold recdb_image. by rewrite <- app_assoc. }
  destruct (new_iterator_ok 1 like_type l tail f) as (it & E & H & _); [done|unfold is_u32; lia|by split|done|].
  exists it. split; [done|]. intros ops.
  destruct (ops_at rsz _ l tail f Hr Hdb ops 0 it H) as (it' & -> & H'). split; [done|].
  by destruct (fframe_fields _ _ (ia_frame _ _ _ _ _ H')) as (Hdat & _).
Qed.
Print Assumptions C39_iterator_enumerates.

(** A locked file is refused. *)
Theorem C39_locked_refused :
  forall f l k tail, usable f -> is_byte k -> k <> 0 -> Z.of_nat (length l) < 2 ^ 32 ->
  f_data f = recdb_image k l ++ tail -> snd (r_new_iterator f) = Err ECorrupted.
Proof.
  intros f l k tail (Hc & He & _) Hb Hk Hn Hd. unfold r_new_iterator.
  assert (Hh : healthy f) by done.
  unfold iobind at 1. unfold iomaperr at 1. change 0 with (Z.of_nat 0) at 1.
  rewrite usable_placed_seek by (done || lia).
  unfold iobind at 1.
  assert (H1 : frem (fset_pos 0 f) = recdb_magic ++ [1] ++ like_type ++ [k] ++ be32 (Z.of_nat (length l)) ++ images l ++ tail).
  { unfold frem. cbn [fset_pos f_pos f_data]. rewrite drop_0, Hd. unfold recdb_image, recdb_header. by rewrite <- !app_assoc. }
  destruct (follows_rprefix fread _ _ _ fread_lawful (fset_pos 0 f)) as (f1 & E1 & Hp1 & Hr1 & Hf1); [by apply fset_pos_healthy|].
  rewrite H1, rread_prefix_ok in *. cbn [fst snd] in E1. unfold iomaperr at 1. rewrite E1. cbv beta iota.
  destruct (follows_rheader fread _ _ _ fread_lawful f1 Hp1) as (f2 & E2 & Hp2 & Hr2 & Hf2).
  cbn [fst snd] in Hr1. rewrite Hr1 in Hr2, E2.
  rewrite rread_header_app in Hr2, E2 by (done || unfold is_u32; lia). cbn [fst snd] in Hr2, E2.
  unfold iomaperr. rewrite E2. cbn [rh_locked]. rewrite (proj2 (Z.eqb_neq k 0)) by done. done.
Qed.
Print Assumptions C39_locked_refused.

(** Entries straddling the refills of a 16-byte buffer; a rewind half way. *)
Example C39_case :
  let f := open_file KOs (recdb_image 0 [ex_a; ex_b] ++ [9; 9]) in
  usable f /\
  exists it, r_new_iterator f = (it_file it, Ret it) /\
  snd (r_ops 16 [OpNext; OpRewind; OpNext; OpHasNext; OpNext; OpHasNext; OpNext] it) =
    [entry_answer ex_a; ADone; entry_answer ex_a; AHas true; entry_answer ex_b; AHas false; AFail].
Proof.
  intros f. split; [split; [done|split; [done|by left]]|].
  eexists (Iter (RHeader 1 like_type 0 2) (new_breader (fset_pos 19 f)) 0 zero_entry). by vm_compute.
Qed.

(** * C40 *)

(** With the default buffer (4096 bytes), rewriting the first of two entries destroys
    the second one and leaves the first unchanged, and success is reported. *)
Theorem C40_set_previous_refuted :
  ~ (forall rsz f l k s s0 ops it it1 it2 answers, (0 < rsz)%nat -> usable f ->
     Forall stored_typed l -> Forall stored_fits l ->
     f_data f = recdb_image 0 l -> r_new_iterator f = (it_file it, Ret it) ->
     r_ops rsz ops it = (it1, answers) -> entries_read (length l) 0 ops = S k -> l !! k = Some s0 ->
     stored_typed s -> stored_fits s -> Forall (fun b => b = 0) (st_free s) -> st_cap s = st_cap s0 ->
     r_set_previous (entry_of s) it1 = (it2, Ret tt) ->
     f_data (it_file it2) = recdb_image 0 (<[k := s]> l)).
Proof.
  intros H. pose (f := open_file KOs (recdb_image 0 [ex_b; ex_b])).
  pose (it := Iter (RHeader 1 like_type 0 2) (new_breader (fset_pos 19 f)) 0 zero_entry).
  pose (it1 := fst (r_ops 4096 [OpNext] it)).
  pose (it2 := fst (r_set_previous (entry_of ex_b') it1)).
  assert (Hb : Forall (fun s => stored_typed s /\ stored_fits s) [ex_b; ex_b]).
  { by repeat (apply Forall_cons; split; [apply ex_b_ok|]). }
  assert (E : f_data (it_file it2) = recdb_image 0 (<[0%nat := ex_b']> [ex_b; ex_b])).
  { apply (H 4096%nat f [ex_b; ex_b] 0%nat ex_b' ex_b [OpNext] it it1 it2 (snd (r_ops 4096 [OpNext] it))).
    - lia.
    - split; [done|split; [done|by left]].
    - eapply Forall_impl; [exact Hb|]. by intros ? [? ?].
    - eapply Forall_impl; [exact Hb|]. by intros ? [? ?].
    - done.
    - vm_compute. reflexivity.
    - unfold it1. by destruct (r_ops 4096 [OpNext] it).
    - done.
    - done.
    - apply ex_b'_ok.
    - apply ex_b'_ok.
    - by constructor.
    - done.
    - vm_compute. reflexivity. }
  vm_compute in E. discriminate E.
Qed.
Print Assumptions C40_set_previous_refuted.

(** On the last entry of a file with nothing behind it, SetPrevious does what it is
    meant to, and iteration goes on correctly; also repeatedly. *)
Theorem C40_set_previous_partial :
  forall rsz f l s0 s ops, (0 < rsz)%nat -> usable f ->
  Forall stored_typed (l ++ [s0]) -> Forall stored_fits (l ++ [s0]) -> Z.of_nat (length (l ++ [s0])) < 2 ^ 32 ->
  f_data f = recdb_image 0 (l ++ [s0]) ->
  entries_read (length (l ++ [s0])) 0 ops = length (l ++ [s0]) ->
  stored_typed s -> stored_fits s -> Forall (fun b => b = 0) (st_free s) -> st_cap s = st_cap s0 ->
  exists it it1 it2, r_new_iterator f = (it_file it, Ret it) /\
    r_ops rsz ops it = (it1, iterate (l ++ [s0]) 0 ops) /\
    r_set_previous (entry_of s) it1 = (it2, Ret tt) /\
    f_data (it_file it2) = recdb_image 0 (l ++ [s]) /\
    forall ops', snd (r_ops rsz ops' it2) = iterate (l ++ [s]) (length (l ++ [s])) ops'.
Proof.
  intros rsz f l s0 s ops Hr (Hc & He & _) Hty Hfi Hn Hd Hend Hts Hfs Hz Hcap.
  set (hdr := recdb_header 1 like_type 0 (Z.of_nat (length (l ++ [s0])))).
  assert (Hdb : database hdr (l ++ [s0]) [] f).
  { split; [done|]. split; [|done]. rewrite Hd. by rewrite app_nil_r. }
  destruct (new_iterator_ok 1 like_type (l ++ [s0]) [] f) as (it & E & H & _); [done|unfold is_u32; lia|by split|done|].
  destruct (ops_at rsz _ _ _ f Hr Hdb ops 0 it H) as (it1 & E1 & H1). rewrite Hend in H1.
  destruct (set_previous_last rsz hdr l f it1 s s0) as (it2 & E2 & Hdb2 & Hd2 & H2); [done..|].
  exists it, it1, it2. split; [done|]. split; [done|]. split; [done|]. split.
  - rewrite Hd2. unfold recdb_image, hdr. rewrite !app_length. cbn [length].
    rewrite map_app, concat_app. cbn [map concat]. by rewrite app_nil_r.
  - intros ops'. destruct (ops_at rsz hdr _ _ _ Hr Hdb2 ops' _ it2 H2) as (it' & -> & _). done.
Qed.
Print Assumptions C40_set_previous_partial.

(** What it does in general on a file small enough for the buffer: whichever entry was
    returned last, it is the end of the file that is overwritten. *)
Theorem C40_overwrites_end_of_file :
  forall rsz f l tail s s0 k ops, (0 < rsz)%nat -> usable f ->
  Forall stored_typed l -> Forall stored_fits l -> Z.of_nat (length l) < 2 ^ 32 ->
  f_data f = recdb_image 0 l ++ tail -> (length (f_data f) <= rsz)%nat ->
  entries_read (length l) 0 ops = S k -> l !! k = Some s0 ->
  stored_typed s -> stored_fits s -> Forall (fun b => b = 0) (st_free s) -> st_cap s = st_cap s0 ->
  exists it it2, r_new_iterator f = (it_file it, Ret it) /\
    r_set_previous (entry_of s) (fst (r_ops rsz ops it)) = (it2, Ret tt) /\
    f_data (it_file it2) =
      take (length (f_data f) - length (stored_bytes s)) (f_data f) ++ stored_bytes s.
Proof.
  intros rsz f l tail s s0 k ops Hr (Hc & He & _) Hty Hfi Hn Hd Hsz Hend Hk Hts Hfs Hz Hcap.
  set (hdr := recdb_header 1 like_type 0 (Z.of_nat (length l))).
  assert (Hdb : database hdr l tail f).
  { split; [done|]. split; [|done]. rewrite Hd. unfold recdb_image. by rewrite <- app_assoc. }
  destruct (new_iterator_ok 1 like_type l tail f) as (it & E & H & Hb & _); [done|unfold is_u32; lia|by split|done|].
  assert (Hlen : length (f_data f) = (19 + length (images l ++ tail))%nat).
  { destruct Hdb as (Hl & -> & _). rewrite app_length, Hl. lia. }
  destruct (ops_drain rsz hdr l tail f Hr Hdb ltac:(lia) ops 0 it H (or_introl (conj eq_refl Hb))) as [H1 D1].
  rewrite Hend in H1, D1. set (it1 := fst (r_ops rsz ops it)) in *.
  destruct D1 as [[? _] | [Hp1 Hr1]]; [lia|].
  pose proof (frem_end _ Hp1 Hr1) as Hpos.
  destruct (fframe_fields _ _ (ia_frame _ _ _ _ _ H1)) as (Hdat & _).
  assert (Hs0 : (length (stored_bytes s0) <= length (images l))%nat).
  { apply elem_of_list_split_length in Hk as (l1 & l2 & -> & _). rewrite images_app, app_length.
    unfold images at 2. cbn [map concat]. rewrite app_length. lia. }
  assert (Hfs0 : stored_fits s0) by (eapply Forall_lookup_1; [exact Hfi|done]).
  unfold stored_fits in *. rewrite app_length in Hlen.
  destruct (set_previous_writes l tail f (S k) it1 s s0) as (it2 & E2 & Hf2 & _); [done| |lia|done|done| |].
  { by replace (S k - 1)%nat with k by lia. }
  { rewrite Hpos, Hdat. lia. }
  exists it, it2. split; [done|]. split; [done|]. rewrite Hf2, padded_zeros by done.
  rewrite fput_data by (cbn; lia). cbn [fset_pos f_pos f_data]. rewrite Hpos, Hdat.
  replace (Z.to_nat (st_cap s)) with (length (stored_bytes s)) by lia.
  set (n := (length (f_data f) - length (stored_bytes s))%nat).
  rewrite <- (take_drop n (f_data f)) at 1. rewrite splice_prefix by (rewrite take_length; lia).
  rewrite (drop_ge (drop n _)) by (rewrite drop_length; lia). by rewrite app_nil_r.
Qed.
Print Assumptions C40_overwrites_end_of_file.

(** What it does on every file, whatever the size of the buffer: the bytes replaced are
    those before the place to which the bufio.Reader has read ahead, and the iteration
    goes on from that place.  They are the bytes of the entry exactly if nothing was
    read ahead, and then all is well. *)
Theorem C40_where_it_writes :
  forall rsz f l tail s s0 k ops, (0 < rsz)%nat -> usable f ->
  Forall stored_typed l -> Forall stored_fits l -> Z.of_nat (length l) < 2 ^ 32 ->
  f_data f = recdb_image 0 l ++ tail ->
  entries_read (length l) 0 ops = S k -> l !! k = Some s0 ->
  stored_typed s -> stored_fits s -> Forall (fun b => b = 0) (st_free s) -> st_cap s = st_cap s0 ->
  exists it it1 it2, r_new_iterator f = (it_file it, Ret it) /\ r_ops rsz ops it = (it1, iterate l 0 ops) /\
    r_set_previous (entry_of s) it1 = (it2, Ret tt) /\
    let begin := length (recdb_image 0 (take k l)) in
    let ahead := length (br_buf (it_reader it1)) in
    (begin + length (stored_bytes s) + ahead <= length (f_data f))%nat /\
    f_data (it_file it2) =
      take (begin + ahead) (f_data f) ++ stored_bytes s ++ drop (begin + ahead + length (stored_bytes s)) (f_data f) /\
    br_buf (it_reader it2) = [] /\ f_pos (it_file it2) = (begin + ahead + length (stored_bytes s))%nat /\
    (ahead = 0%nat -> f_data (it_file it2) = recdb_image 0 (<[k := s]> l) ++ tail /\
      forall ops', snd (r_ops rsz ops' it2) = iterate (<[k := s]> l) (S k) ops').
Proof.
  intros rsz f l tail s s0 k ops Hr (Hc & He & _) Hty Hfi Hn Hd Hend Hk Hts Hfs Hz Hcap.
  set (hdr := recdb_header 1 like_type 0 (Z.of_nat (length l))).
  assert (Hdb : database hdr l tail f).
  { split; [done|]. split; [|done]. rewrite Hd. unfold recdb_image. by rewrite <- app_assoc. }
  destruct (new_iterator_ok 1 like_type l tail f) as (it & E & H & _ & _); [done|unfold is_u32; lia|by split|done|].
  destruct (ops_at rsz _ _ _ f Hr Hdb ops 0 it H) as (it1 & E1 & H1). rewrite Hend in H1.
  destruct (fframe_fields _ _ (ia_frame _ _ _ _ _ H1)) as (Hdat & Hki & Hcl & Hen & Hlo).
  pose proof (ia_ok _ _ _ _ _ H1) as [[Hh Hp] _]. fold (it_file it1) in *.
  pose proof (ia_rem _ _ _ _ _ H1) as Hrem. unfold br_rem in Hrem. fold (it_file it1) in Hrem.
  assert (Hsplit : l = take k l ++ s0 :: drop (S k) l) by (symmetry; by apply take_drop_middle).
  assert (Himg : images l = images (take k l) ++ stored_bytes s0 ++ images (drop (S k) l)).
  { rewrite Hsplit at 1. by rewrite images_app. }
  assert (Hfs0 : stored_fits s0) by (eapply Forall_lookup_1; [exact Hfi|done]).
  assert (Hlens : length (stored_bytes s) = length (stored_bytes s0)) by (unfold stored_fits in *; lia).
  set (begin := length (recdb_image 0 (take k l))). set (ahead := length (br_buf (it_reader it1))).
  assert (Hbegin : begin = (19 + length (images (take k l)))%nat).
  { unfold begin, recdb_image. by rewrite app_length. }
  assert (Hlen : length (f_data f) =
    (begin + length (stored_bytes s) + length (images (drop (S k) l) ++ tail))%nat).
  { rewrite Hd. unfold recdb_image. fold hdr. fold (images l).
    rewrite Himg, Hbegin, !app_length, Hlens. change (length hdr) with 19%nat. lia. }
  assert (Hpos : f_pos (it_file it1) = (begin + length (stored_bytes s) + ahead)%nat).
  { apply (f_equal length) in Hrem. rewrite app_length in Hrem. unfold frem in Hrem. rewrite drop_length in Hrem.
    fold ahead in Hrem. rewrite Hdat in Hrem, Hp. lia. }
  assert (Hk1 : (k < length l)%nat) by (by eapply lookup_lt_Some).
  destruct (set_previous_writes l tail f (S k) it1 s s0) as (it2 & E2 & Hf2 & Hb2 & Hi2 & Hh2 & He2); [done| |lia|done|done| |].
  { by replace (S k - 1)%nat with k by lia. }
  { rewrite Hpos. unfold stored_fits in *. lia. }
  rewrite padded_zeros in Hf2 by done.
  replace (f_pos (it_file it1) - Z.to_nat (st_cap s))%nat with (begin + ahead)%nat in Hf2
    by (rewrite Hpos; unfold stored_fits in *; lia).
  assert (Hdat2 : f_data (it_file it2) =
    take (begin + ahead) (f_data f) ++ stored_bytes s ++ drop (begin + ahead + length (stored_bytes s)) (f_data f)).
  { rewrite Hdat in Hp. rewrite Hf2, fput_data by (cbn [fset_pos f_pos f_data]; rewrite Hdat; lia). cbn [fset_pos f_pos f_data]. rewrite Hdat.
    unfold splice. replace (begin + ahead - length (f_data f))%nat with 0%nat by lia.
    by rewrite app_nil_r. }
  assert (Hpos2 : f_pos (it_file it2) = (begin + ahead + length (stored_bytes s))%nat).
  { rewrite Hf2, fput_pos. cbn [fset_pos f_pos]. done. }
  exists it, it1, it2. split; [done|]. split; [done|]. split; [done|]. cbv zeta.
  split; [rewrite Hdat in Hp; lia|]. split; [done|]. split; [by rewrite Hb2|]. split; [done|].
  intros Ha. change (ahead = 0%nat) in Ha. rewrite Ha, Nat.add_0_r in Hdat2, Hpos2.
  assert (Himg' : images (<[k := s]> l) = images (take k l) ++ stored_bytes s ++ images (drop (S k) l)).
  { rewrite insert_take_drop by done. by rewrite images_app. }
  assert (Hfd : f_data f = (hdr ++ images (take k l)) ++ stored_bytes s0 ++ images (drop (S k) l) ++ tail).
  { rewrite Hd. unfold recdb_image. fold hdr. fold (images l). by rewrite Himg, <- !app_assoc. }
  assert (Hbl : begin = length (hdr ++ images (take k l))) by (rewrite app_length; exact Hbegin).
  assert (Hfd2 : f_data (it_file it2) = hdr ++ images (<[k := s]> l) ++ tail).
  { rewrite Hdat2, Himg', Hfd, Hbl, take_app, Hlens. rewrite <- drop_drop, drop_app, drop_app. by rewrite <- !app_assoc. }
  split; [rewrite Hfd2; unfold recdb_image, hdr; by rewrite insert_length, <- app_assoc|].
  assert (Hdb2 : database hdr (<[k := s]> l) tail (it_file it2)).
  { split; [done|]. split; [done|]. split; by apply Forall_insert. }
  intros ops'.
  assert (H2 : it_at tail (<[k := s]> l) (it_file it2) (S k) it2).
  { split.
    - rewrite Hb2. split; [|done]. cbn [new_breader br_r]. split.
      + rewrite Hf2. by apply fput_healthy, fset_pos_healthy.
      + rewrite Hpos2, Hfd2, Himg', !app_length. rewrite Hbl, app_length. lia.
    - rewrite Hb2. unfold br_rem. cbn [new_breader br_buf br_r]. unfold frem. rewrite Hpos2, Hfd2, Himg'.
      rewrite drop_insert_gt by lia. rewrite Hbl, <- !app_assoc, app_assoc.
      rewrite <- drop_drop, drop_app, drop_app. done.
    - done.
    - done.
    - rewrite insert_length. lia.
    - by rewrite insert_length, Hh2, (ia_count _ _ _ _ _ H1).
    - intros _. exists s. split.
      + replace (S k - 1)%nat with k by lia. by apply list_lookup_insert.
      + rewrite He2. destruct (ia_entry _ _ _ _ _ H1) as (s1 & Hs1 & ->); [lia|].
        replace (S k - 1)%nat with k in Hs1 by lia. rewrite Hk in Hs1. injection Hs1 as <-. done. }
  destruct (ops_at rsz hdr _ _ _ Hr Hdb2 ops' _ it2 H2) as (it' & -> & _). done.
Qed.
Print Assumptions C40_where_it_writes.

(** Both theorems apply to two entries of 29 bytes: after two Nexts, after one. *)
Example C40_case :
  let f := open_file KOs (recdb_image 0 [ex_b; ex_b]) in
  entries_read 2 0 [OpNext; OpHasNext; OpNext] = 2%nat /\ entries_read 2 0 [OpNext; OpRewind; OpNext] = 1%nat /\
  (length (f_data f) <= 4096)%nat /\
  exists it, r_new_iterator f = (it_file it, Ret it) /\
  f_data (it_file (fst (r_set_previous (entry_of ex_b') (fst (r_ops 4096 [OpNext] it))))) =
    recdb_image 0 [ex_b; ex_b'].
Proof.
  intros f. split; [done|]. split; [done|]. split; [cbn; lia|].
  eexists (Iter (RHeader 1 like_type 0 2) (new_breader (fset_pos 19 f)) 0 zero_entry). by vm_compute.
Qed.

(** * C41 *)

(** Create reports success and writes nothing. *)
Theorem C41_create_refuted :
  forall (W : Type) (wr : writer W) bsz w, (19 <= bsz)%nat -> r_create wr bsz w = (w, Ret tt).
Proof.
  intros W wr bsz w Hb. unfold r_create, r_create_fill, iobind, r_write_prefix, iomaperr, write_all.
  assert (E : forall bs b, bw_err b = None -> (length bs + length (bw_buf b) <= bsz)%nat ->
    bw_write wr bsz bs b = (BWriter (bw_w b) (bw_buf b ++ bs) None, (length bs, None))).
  { intros bs [w0 buf e] He Hl. cbn in He. subst e. unfold bw_write. cbn [bw_buf] in *.
    destruct (length bs + 2)%nat eqn:En; [lia|]. cbn [bw_write_loop bw_buf bw_err bw_w].
    rewrite (proj2 (Nat.leb_le _ _)) by lia. done. }
  rewrite E by (done || (cbn; lia)). cbn [length]. unfold r_write_header, iomaperr, write_all.
  rewrite E by (done || (cbn; lia)). done.
Qed.
Print Assumptions C41_create_refuted.

(** So the file made by OpenOrCreateFile is empty, and no iterator can be had on it. *)
Theorem C41_created_file_unusable_refuted :
  forall bsz, (19 <= bsz)%nat ->
  let f := fst (r_open_or_create bsz None) in
  snd (r_open_or_create bsz None) = Ret tt /\ f_data f = [] /\
  snd (r_new_iterator f) = Err (EMsg "failed to read DB prefix").
Proof.
  intros bsz Hb. unfold r_open_or_create. rewrite C41_create_refuted by done. by vm_compute.
Qed.
Print Assumptions C41_created_file_unusable_refuted.

(** Had the bytes reached the file, it would be a database without entries: what Create
    hands to the bufio.Writer is the right thing. *)
Theorem C41_create_partial :
  forall bsz f, usable f -> f_data f = [] -> f_pos f = 0%nat ->
  exists b, (run r_create_fill fwrite bsz; bw_flush fwrite) (new_bwriter f) = (b, Ret tt) /\
  f_data (bw_w b) = recdb_image 0 [] /\
  exists it, r_new_iterator (bw_w b) = (it_file it, Ret it) /\ r_has_next it = false.
Proof.
  intros bsz f (Hc & He & _) Hd Hpos.
  pose proof (bw_write_lawful fwrite healthy (fun f => f) bsz fwrite_lawful) as L.
  assert (Hok : bw_ok healthy (new_bwriter f)) by done.
  assert (Em : emits (bw_ok healthy) (bw_img (fun f => f)) (r_create_fill fwrite bsz)
    (recdb_image 0 []) tt).
  { change (recdb_image 0 []) with (recdb_prefix ++ ([recdb_version] ++ like_entry_type ++ [0] ++ be_enc 4 0)).
    eapply emits_bind; apply emits_maperr; by apply emits_write_all. }
  destruct (Em _ Hok) as (b1 & E1 & Hok1 & Himg1).
  destruct (bw_flush_lawful fwrite healthy (fun f => f) b1 fwrite_lawful Hok1) as (f2 & E2 & Hh2 & Hf2).
  exists (BWriter f2 [] None). cbn [bw_w].
  split.
  { unfold iobind. by rewrite E1. }
  assert (Hd2 : f_data f2 = recdb_image 0 []).
  { rewrite Hf2, Himg1. unfold bw_img. cbn [new_bwriter bw_buf bw_w]. rewrite fput_nil, fput_data by lia.
    by rewrite Hpos, Hd. }
  split; [done|].
  destruct (new_iterator_ok 1 like_type [] [] f2) as (it & E & H & _); [done|done|done| |].
  { split; [done|]. split; [by rewrite Hd2|]. split; by constructor. }
  exists it. split; [done|]. by rewrite (has_next_at _ _ _ _ _ H).
Qed.
Print Assumptions C41_create_partial.

Example C41_case :
  let f := open_file KOs [] in usable f /\ fst (r_create fwrite 4096 f) = f /\
  f_data (fst (r_open_or_create 4096 None)) = [].
Proof. split; [split; [done|split; [done|by left]]|by vm_compute]. Qed.
