(** Proofs about the iterator when reads of the file may fail. *)
From Verif Require Import Base GoIO Profile Recdb SpecFile SpecRecdb RecdbSession
  GoIOFacts CodecFacts FaultyFacts FlakyReadFacts RecdbFacts.

Section maybe.
  Context {R F : Type} (rd : reader R) (ok : R -> Prop) (rem : R -> list byte) (fr : R -> F).
  Hypothesis L : flaky_reader rd ok rem fr.

  Lemma maybe_rprefix : maybe ok rem fr (r_read_prefix rd) (r_read_prefix lread).
  Proof.
    apply maybe_bind; [by apply maybe_read_full|]. intros bs.
    destruct (bool_decide _); [apply maybe_ret|apply maybe_fail].
  Qed.

  Lemma maybe_rheader : maybe ok rem fr (r_read_header rd) (r_read_header lread).
  Proof.
    apply maybe_bind; [by apply maybe_maperr, maybe_read_full|]. intros bs. apply maybe_ret.
  Qed.

  Lemma maybe_rdata : maybex ok rem fr (r_read_entry_data rd) (r_read_entry_data lread).
  Proof.
    unfold r_read_entry_data.
    repeat (apply maybex_bind; [apply maybex_fst; by (apply maybe_read_uint || apply maybe_read_uint64s)|]; intros ?).
    apply maybex_bind; [apply maybex_snd; eauto|]. intros ?.
    apply maybex_bind; [apply maybex_ret|]. intros ?.
    apply maybex_bind; [apply maybex_snd; eauto|]. intros ?.
    destruct (_ <? _)%Z; [apply maybex_fail|apply maybex_ret].
  Qed.

  Lemma maybe_rentry : maybex ok rem fr (r_read_entry rd) (r_read_entry lread).
  Proof.
    apply maybex_maperr.
    apply maybex_bind; [by apply maybex_fst, maybe_read_uint|]. intros ?.
    apply maybex_bind; [apply maybex_snd; eauto|]. intros ?.
    apply maybex_bind; [by apply maybex_fst, maybe_read_full|]. intros ?.
    apply maybex_bind; [apply maybex_snd; eauto|]. intros ?.
    apply maybex_bind; [apply maybe_rdata|]. intros ?.
    apply maybex_bind; [by apply maybex_fst, maybe_skip|]. intros ?.
    apply maybex_ret.
  Qed.
End maybe.

Lemma iter_flaky rsz : (0 < rsz)%nat ->
  flaky_reader (br_read fread rsz) (br_any fopen) (br_rem frem) (br_frame fkept).
Proof. intros. apply br_read_flaky; [done|apply fread_flaky]. Qed.

(** [k] entries were returned since the last Rewind; unless [lost] they are the first [k]. *)
Record it_maybe (tail : list byte) (l : list stored) (f : file) (lost : bool) (k : nat) (it : iter) : Prop := {
  im_ok : br_any fopen (it_reader it);
  im_rem : lost = false -> br_rem frem (it_reader it) = images (drop k l) ++ tail;
  im_frame : fkept (it_file it) = fkept f;
  im_index : it_index it = Z.of_nat k;
  im_count : rh_count (it_header it) = Z.of_nat (length l)
}.

Lemma fopen_seek f n : f_closed f = false -> (n <= length (f_data f))%nat ->
  fseek (Z.of_nat n) SeekStart f = (fset_pos n f, Ret (Z.of_nat n)).
Proof.
  intros Hc Hn. unfold fseek. rewrite Hc.
  replace (match f_kind f with KBuf => _ | KOs => _ end) with false; [by rewrite Nat2Z.id|].
  destruct (f_kind f); rewrite ?(proj2 (Z.ltb_ge (Z.of_nat n) 0)), ?(proj2 (Z.ltb_ge _ (Z.of_nat n))) by lia; done.
Qed.

Lemma fset_pos_kept n f : fkept (fset_pos n f) = fkept f.
Proof. done. Qed.

Lemma new_iterator_flaky v t l tail f : length t = 8%nat -> is_u32 (Z.of_nat (length l)) -> f_closed f = false ->
  database (recdb_header v t 0 (Z.of_nat (length l))) l tail f ->
  exists f' o, r_new_iterator f = (f', o) /\ fkept f' = fkept f /\
    ((exists e, o = Err e) \/ exists it, o = Ret it /\ f' = it_file it /\ it_maybe tail l f false 0 it).
Proof.
  intros Ht Hn Hc (Hl & Hd & _ & _). unfold r_new_iterator.
  unfold iobind at 1. unfold iomaperr at 1. change 0%Z with (Z.of_nat 0) at 1.
  rewrite fopen_seek by (done || lia).
  unfold iobind at 1.
  assert (Hp : fopen (fset_pos 0 f)) by (split; [done|cbn; lia]).
  assert (H1 : frem (fset_pos 0 f) = recdb_magic ++ [v] ++ t ++ [0%Z] ++ be32 (Z.of_nat (length l)) ++ images l ++ tail).
  { unfold frem. cbn [fset_pos f_pos f_data]. rewrite drop_0, Hd. unfold recdb_header. by rewrite <- !app_assoc. }
  destruct (maybe_rprefix fread _ _ _ fread_flaky _ Hp) as (f1 & o1 & E1 & Hp1 & Hf1 & H).
  unfold iomaperr at 1. rewrite E1. rewrite fset_pos_kept in Hf1.
  destruct H as [[e ->] | ([] & -> & R1)].
  { exists f1. eexists. split; [reflexivity|]. split; [done|]. left. eauto. }
  rewrite H1, rread_prefix_ok in R1. apply (f_equal fst) in R1. cbn [fst] in R1.
  destruct (maybe_rheader fread _ _ _ fread_flaky f1 Hp1) as (f2 & o2 & E2 & Hp2 & Hf2 & H).
  unfold iomaperr. rewrite E2.
  destruct H as [[e ->] | (h & -> & R2)].
  { exists f2. eexists. split; [reflexivity|]. split; [congruence|]. left. eauto. }
  rewrite <- R1, rread_header_app in R2 by done. injection R2 as R2 <-.
  cbn [rh_locked Z.eqb negb].
  exists f2. eexists. split; [reflexivity|]. split; [congruence|]. right. eexists. split; [reflexivity|].
  split; [done|]. split; cbn [it_header it_reader it_index it_entry new_breader br_r rh_count].
  - exact Hp2.
  - intros _. unfold br_rem. cbn [new_breader br_buf br_r app]. by rewrite drop_0, <- R2.
  - unfold it_file. cbn. congruence.
  - done.
  - done.
Qed.

Lemma rewind_flaky hdr l tail f lost k it : database hdr l tail f -> it_maybe tail l f lost k it ->
  exists it', r_rewind it = (it', Ret tt) /\ it_maybe tail l f false 0 it'.
Proof.
  intros (Hl & Hd & _ & _) H. pose proof (im_ok _ _ _ _ _ _ H) as [Hc Hp].
  destruct (fkept_fields _ _ (im_frame _ _ _ _ _ _ H)) as (Hdat & _).
  unfold r_rewind. change recdb_entries_offset with (Z.of_nat 19).
  fold (it_file it) in *.
  rewrite fopen_seek; [|done|rewrite Hdat, Hd, app_length, Hl; lia].
  eexists. split; [reflexivity|].
  split; cbn [it_header it_reader it_index it_entry].
  - split; [done|]. cbn. rewrite Hdat, Hd, app_length, Hl. lia.
  - intros _. unfold br_rem. cbn [new_breader br_buf br_r app]. unfold frem. cbn [fset_pos f_pos f_data].
    rewrite Hdat, Hd, drop_app_alt by done. by rewrite drop_0.
  - rewrite <- (im_frame _ _ _ _ _ _ H). done.
  - done.
  - apply (im_count _ _ _ _ _ _ H).
Qed.

Lemma has_next_maybe tail l f lost k it : it_maybe tail l f lost k it ->
  r_has_next it = bool_decide (k < length l)%nat.
Proof.
  intros H. unfold r_has_next. rewrite (im_index _ _ _ _ _ _ H), (im_count _ _ _ _ _ _ H).
  destruct (decide (k < length l)%nat).
  - rewrite bool_decide_true by done. apply Z.ltb_lt. lia.
  - rewrite bool_decide_false by done. apply Z.ltb_ge. lia.
Qed.

(** Whatever the bytes are, an entry that is read holds a profile. *)
Lemma read_entry_profile l e l' e' a : r_read_entry lread (l, e) = ((l', e'), Ret a) ->
  exists s, e' = entry_of s.
Proof.
  intros E. unfold r_read_entry, r_read_entry_data, iomaperr, iobind, on_fst, on_snd, set_cap, set_deleted, set_data, get_cap,
    iolift, iofail, ioret in E.
  repeat (match type of E with
    | context [match ?x with _ => _ end] =>
      lazymatch x with
      | context [match _ with _ => _ end] => fail
      | _ => destruct x eqn:?
      end
    end; try (simplify_eq; fail)).
  all: simplify_eq/=; eexists (Stored _ _ _ _ _ []); reflexivity.
Qed.

Lemma next_flaky rsz hdr l tail f lost k it : (0 < rsz)%nat -> database hdr l tail f ->
  it_maybe tail l f lost k it -> (k < length l)%nat ->
  exists it', (exists e, r_next rsz it = (it', Err e) /\ it_maybe tail l f true k it') \/
    (exists s, r_next rsz it = (it', Ret (entry_of s)) /\ (lost = false -> l !! k = Some s) /\
       it_maybe tail l f lost (S k) it').
Proof.
  intros Hr (_ & _ & Hty & Hfi) H Hk.
  unfold r_next. rewrite (has_next_maybe _ _ _ _ _ _ H), bool_decide_true by done. cbn [negb].
  destruct (maybe_rentry (br_read fread rsz) _ _ _ (iter_flaky rsz Hr) (it_reader it) (it_entry it)
    (im_ok _ _ _ _ _ _ H)) as (b & e & o & E & Hok & Hfr & Ho). rewrite E.
  assert (Hkept : fkept (br_r b) = fkept f).
  { unfold br_frame in Hfr. rewrite Hfr. apply (im_frame _ _ _ _ _ _ H). }
  destruct Ho as [[x ->] | (c & -> & Hp)].
  { eexists. left. eexists. split; [reflexivity|].
    split; cbn [it_header it_reader it_index it_entry]; [done|done|done| |].
    - apply (im_index _ _ _ _ _ _ H).
    - apply (im_count _ _ _ _ _ _ H). }
  assert (exists s, e = entry_of s /\ (lost = false -> l !! k = Some s /\ br_rem frem b = images (drop (S k) l) ++ tail))
    as (s & -> & Hs).
  { destruct lost.
    - destruct (read_entry_profile _ _ _ _ _ Hp) as [s ->]. by exists s.
    - destruct (lookup_lt_is_Some_2 l k Hk) as [s Hs]. exists s.
      rewrite (im_rem _ _ _ _ _ _ H eq_refl) in Hp. rewrite (drop_S _ _ _ Hs) in Hp.
      change (images (s :: drop (S k) l)) with (stored_bytes s ++ images (drop (S k) l)) in Hp.
      rewrite <- app_assoc in Hp. rewrite read_entry_app in Hp.
      2:{ eapply Forall_lookup_1; [exact Hty|done]. }
      2:{ eapply Forall_lookup_1; [exact Hfi|done]. }
      apply (f_equal fst) in Hp. cbn [fst] in Hp.
      split; [by apply (f_equal snd) in Hp|]. intros _. split; [done|]. by apply (f_equal fst) in Hp. }
  eexists. right. exists s. split; [reflexivity|]. split; [intros Hl; apply (Hs Hl)|].
  split; cbn [it_header it_reader it_index it_entry]; [done| |done| |].
  - intros Hl. apply (Hs Hl).
  - rewrite (im_index _ _ _ _ _ _ H). lia.
  - apply (im_count _ _ _ _ _ _ H).
Qed.

Lemma next_end_maybe rsz tail l f lost k it : it_maybe tail l f lost k it -> ~ (k < length l)%nat ->
  exists e, r_next rsz it = (it, Err e).
Proof.
  intros H Hk. unfold r_next. rewrite (has_next_maybe _ _ _ _ _ _ H), bool_decide_false by done. cbn. eauto.
Qed.

Lemma ops_flaky rsz hdr l tail f : (0 < rsz)%nat -> database hdr l tail f -> forall ops lost k it,
  it_maybe tail l f lost k it ->
  exists it' answers lost' k', r_ops rsz ops it = (it', answers) /\
    iterates_until l lost k ops answers /\ it_maybe tail l f lost' k' it'.
Proof.
  intros Hr Hd. induction ops as [|op ops IH]; intros lost k it H; [by exists it, [], lost, k|].
  cbn [r_ops]. destruct op; cbn [r_op].
  - destruct (IH lost k it H) as (it' & as' & lost' & k' & -> & Ha & H').
    exists it'. eexists. exists lost', k'. split; [reflexivity|]. split; [|done].
    cbn [iterates_until]. by rewrite (has_next_maybe _ _ _ _ _ _ H).
  - destruct (decide (k < length l)%nat) as [Hk | Hk].
    + destruct (next_flaky rsz hdr l tail f lost k it Hr Hd H Hk) as (it1 & [(e & -> & H1) | (s & -> & Hs & H1)]).
      * destruct (IH true k it1 H1) as (it' & as' & lost' & k' & -> & Ha & H').
        exists it'. eexists. exists lost', k'. split; [reflexivity|]. split; [|done].
        cbn [iterates_until]. left. split; [done|]. rewrite bool_decide_true by done. by destruct lost.
      * rewrite entry_of_answer. destruct (IH lost (S k) it1 H1) as (it' & as' & lost' & k' & -> & Ha & H').
        exists it'. eexists. exists lost', k'. split; [reflexivity|]. split; [|done].
        cbn [iterates_until]. right. by exists s.
    + destruct (next_end_maybe rsz tail l f lost k it H Hk) as [e ->].
      destruct (IH lost k it H) as (it' & as' & lost' & k' & -> & Ha & H').
      exists it'. eexists. exists lost', k'. split; [reflexivity|]. split; [|done].
      cbn [iterates_until]. left. split; [done|]. rewrite bool_decide_false by done. by destruct lost.
  - destruct (rewind_flaky hdr l tail f lost k it Hd H) as (it1 & -> & H1).
    destruct (IH false 0%nat it1 H1) as (it' & as' & lost' & k' & -> & Ha & H').
    exists it'. eexists. exists lost', k'. split; [reflexivity|]. split; [|done]. done.
Qed.

(** Once nothing fails any more, Rewind starts an undisturbed iteration. *)
Lemma rewind_quiet hdr l tail f lost k it : database hdr l tail f -> it_maybe tail l f lost k it ->
  f_env (it_file it) = [] ->
  exists it', r_rewind it = (it', Ret tt) /\ it_at tail l (it_file it) 0 it'.
Proof.
  intros (Hl & Hd & _ & _) H He. pose proof (im_ok _ _ _ _ _ _ H) as [Hc Hp].
  destruct (fkept_fields _ _ (im_frame _ _ _ _ _ _ H)) as (Hdat & _).
  unfold r_rewind. change recdb_entries_offset with (Z.of_nat 19).
  fold (it_file it) in *.
  rewrite fopen_seek; [|done|rewrite Hdat, Hd, app_length, Hl; lia].
  eexists. split; [reflexivity|].
  split; cbn [it_header it_reader it_index it_entry].
  - split; [|done]. split; [done|]. cbn. rewrite Hdat, Hd, app_length, Hl. lia.
  - unfold br_rem. cbn [new_breader br_buf br_r app]. unfold frem. cbn [fset_pos f_pos f_data].
    rewrite Hdat, Hd, drop_app_alt by done. by rewrite drop_0.
  - done.
  - done.
  - lia.
  - apply (im_count _ _ _ _ _ _ H).
  - lia.
Qed.
