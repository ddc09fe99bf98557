(** Every reading and writing call returns, whatever a file contains and whichever
    reads and writes fail. *)
From Verif Require Import Base GoIO Lock Profile Delta Index Recdb.
#[local] Open Scope nat_scope.

Definition returned {A} (o : outcome A) : Prop :=
  match o with Ret _ | Err _ => True | _ => False end.

(** [m] returns, leaves at most as much to read as before and at least [k] less
    when it succeeds. *)
Definition steady {S A} (mu : S -> nat) (k : nat) (m : io S A) : Prop := forall s,
  returned (snd (m s)) /\ mu (fst (m s)) <= mu s /\
  match snd (m s) with Ret _ => mu (fst (m s)) + k <= mu s | _ => True end.

Definition safe {S A} (m : io S A) : Prop := forall s, returned (snd (m s)).

Section Calculus.
  Context {S : Type} (mu : S -> nat).
  Lemma steady_ret {A} (a : A) : steady mu 0 (ioret a).
  Proof. intros s. cbn. lia. Qed.
  Lemma steady_fail {A} e k : steady mu k (@iofail S A e).
  Proof. intros s. cbn. lia. Qed.
  Lemma steady_bind {A B} k k' (m : io S A) (f : A -> io S B) :
    steady mu k m -> (forall a, steady mu k' (f a)) -> steady mu (k + k') (iobind m f).
  Proof.
    intros Hm Hf s. unfold iobind. specialize (Hm s). destruct (m s) as [s' [a|e| |]]; cbn in *; try tauto.
    specialize (Hf a s'). destruct (f a s') as [s'' [b|e| |]]; cbn in *; intuition lia.
  Qed.
  Lemma steady_maperr {A} k g (m : io S A) : steady mu k m -> steady mu k (iomaperr g m).
  Proof. intros Hm s. unfold iomaperr. specialize (Hm s). by destruct (m s) as [s' [a|e| |]]. Qed.
  Lemma steady_le {A} k k' (m : io S A) : k' <= k -> steady mu k m -> steady mu k' m.
  Proof.
    intros Hk Hm s. specialize (Hm s). destruct (m s) as [s' [a|e| |]]; cbn in *; intuition lia.
  Qed.
End Calculus.

Lemma steady_fst {S T A} (mu : S -> nat) k (m : io S A) : steady mu k m ->
  steady (fun p : S * T => mu (fst p)) k (on_fst m).
Proof.
  intros Hm [s t]. unfold on_fst. specialize (Hm s). by destruct (m s) as [s' [a|e| |]].
Qed.
Lemma steady_snd {S T A} (mu : S -> nat) (m : io T A) : safe m ->
  steady (fun p : S * T => mu (fst p)) 0 (on_snd m).
Proof.
  intros Hm [s t]. unfold on_snd. specialize (Hm t). destruct (m t) as [t' [a|e| |]]; cbn in *; intuition lia.
Qed.
Lemma steady_safe {S A} mu k (m : io S A) : steady mu k m -> safe m.
Proof. intros H s. apply H. Qed.

Lemma safe_ret {S A} (a : A) : safe (@ioret S A a).
Proof. done. Qed.
Lemma safe_fail {S A} e : safe (@iofail S A e).
Proof. done. Qed.
Lemma safe_bind {S A B} (m : io S A) (f : A -> io S B) :
  safe m -> (forall a, safe (f a)) -> safe (iobind m f).
Proof.
  intros Hm Hf s. unfold iobind. specialize (Hm s). destruct (m s) as [s' [a|e| |]]; cbn in *; try tauto.
  apply Hf.
Qed.
Lemma safe_maperr {S A} g (m : io S A) : safe m -> safe (iomaperr g m).
Proof. intros Hm s. unfold iomaperr. specialize (Hm s). by destruct (m s) as [s' [a|e| |]]. Qed.
Lemma safe_fst {S T A} (m : io S A) : safe m -> safe (@on_fst S T A m).
Proof. intros Hm [s t]. unfold on_fst. specialize (Hm s). by destruct (m s). Qed.
Lemma safe_snd {S T A} (m : io T A) : safe m -> safe (@on_snd S T A m).
Proof. intros Hm [s t]. unfold on_snd. specialize (Hm t). by destruct (m t). Qed.

(** ** Readers that make progress *)

Definition progress {R} (rd : reader R) (mu : R -> nat) : Prop := forall n r, 0 < n ->
  let '(r', (bs, e)) := rd n r in
  mu r' + length bs <= mu r /\ (e = None -> bs <> []).

(** Bytes between the pointer and the end. *)
Definition unread (f : file) : nat := length (f_data f) - f_pos f.

Lemma fread_progress : progress fread unread.
Proof.
  intros n f Hn. unfold fread. destruct (f_closed f); [cbn; split; [lia|done]|].
  assert (E : forall x f', next_fault f = (x, f') -> f_data f' = f_data f /\ f_pos f' = f_pos f /\ f_kind f' = f_kind f).
  { unfold next_fault. destruct (f_env f); intros x f' [= <- <-]; done. }
  destruct (next_fault f) as [x f'] eqn:Ef. destruct (E _ _ eq_refl) as (Ed & Ep & Ek). cbn zeta.
  set (rest := drop (f_pos f') (f_data f')).
  assert (Hr : length rest = unread f) by (unfold rest, unread; rewrite drop_length, Ed, Ep; done).
  assert (Hpos : forall bs : list byte, length bs <= length rest ->
    unread (fset_pos (f_pos f' + length bs) f') + length bs <= unread f).
  { intros bs Hb. unfold unread, fset_pos in *. cbn. rewrite Ed, Ep. lia. }
  destruct x as [|k].
  - destruct (f_kind f'), n as [|n]; try lia; (destruct rest as [|b rest'] eqn:Er;
      [split; [unfold unread; rewrite Ed, Ep; cbn; lia|done]|]);
      (split; [apply Hpos; rewrite take_length; lia|done]).
  - split; [|done]. apply Hpos. rewrite take_length. lia.
Qed.

Lemma br_read_progress {R} (rd : reader R) mu size : 0 < size -> progress rd mu ->
  progress (br_read rd size) (fun b => length (br_buf b) + mu (br_r b)).
Proof.
  intros Hs Hp n b Hn. unfold br_read. destruct n as [|n]; [lia|].
  destruct b as [r [|x buf] er]; cbn [br_buf br_r br_err].
  - destruct er as [e|]; [cbn; split; [lia|done]|].
    destruct (Nat.leb_spec size (S n)).
    + specialize (Hp (S n) r ltac:(lia)). destruct (rd (S n) r) as [r' [bs e]]. cbn. split; [lia|tauto].
    + specialize (Hp size r Hs). destruct (rd size r) as [r' [[|y bs] e]]; cbn [br_buf br_r br_err].
      * destruct Hp as [Hp Hp']. split; [cbn in *; lia|done].
      * destruct Hp as [Hp _]. cbn [length] in *. rewrite drop_length, take_length. cbn [length]. split; [lia|done].
  - rewrite drop_length, take_length. cbn [length]. split; [lia|done].
Qed.

Lemma read_full_loop_steady {R} (rd : reader R) mu : progress rd mu ->
  forall fuel n acc r, n - length acc <= fuel ->
  let '(r', o) := read_full_loop rd fuel n acc r in
  returned o /\ mu r' <= mu r /\
  match o with Ret l => mu r' + (n - length acc) <= mu r | _ => True end.
Proof.
  intros Hp fuel. induction fuel as [|fuel IH]; intros n acc r Hf; cbn.
  - destruct (Nat.leb_spec n (length acc)); [cbn; lia|lia].
  - destruct (Nat.leb_spec n (length acc)); [cbn; lia|].
    specialize (Hp (n - length acc) r ltac:(lia)).
    destruct (rd (n - length acc) r) as [r' [bs e]]. destruct Hp as [H1 H2].
    destruct e as [e|].
    + destruct (Nat.leb_spec n (length (acc ++ bs))) as [L|L]; rewrite app_length in L.
      * cbn. lia.
      * destruct e; try (cbn; lia). destruct (acc ++ bs); cbn; lia.
    + specialize (IH n (acc ++ bs) r'). rewrite app_length in IH.
      destruct bs as [|b bs]; [by destruct H2|]. cbn [length] in *. specialize (IH ltac:(lia)).
      destruct (read_full_loop rd fuel n (acc ++ b :: bs) r') as [r'' o].
      destruct o; cbn in *; intuition lia.
Qed.

Lemma read_full_steady {R} (rd : reader R) mu n : progress rd mu -> steady mu n (read_full rd n).
Proof.
  intros Hp s. pose proof (read_full_loop_steady rd mu Hp n n [] s) as H. unfold read_full.
  destruct (read_full_loop rd n n [] s) as [s' o]. cbn in *. specialize (H ltac:(lia)).
  destruct o; cbn in *; intuition lia.
Qed.
Lemma read_uint_steady {R} (rd : reader R) mu n : progress rd mu -> steady mu n (read_uint rd n).
Proof.
  intros Hp. unfold read_uint. replace n with (n + 0) at 1 by lia.
  apply steady_bind; [by apply read_full_steady|]. intros a. apply steady_ret.
Qed.
Lemma read_uint64s_steady {R} (rd : reader R) mu n : progress rd mu -> steady mu 0 (read_uint64s rd n).
Proof.
  intros Hp. unfold read_uint64s. apply (steady_le _ (8 * n + 0)); [lia|].
  apply steady_bind; [by apply read_full_steady|]. intros a. apply steady_ret.
Qed.

Lemma skip_loop_steady {R} (rd : reader R) mu : progress rd mu ->
  forall fuel size skipped r, (Z.to_nat (size - skipped) <= fuel)%nat ->
  let '(r', (_, e)) := skip_loop rd fuel size skipped r in
  mu r' <= mu r /\ (e = Some EDiverge -> exists n r0, snd (snd (rd n r0)) = Some EDiverge).
Proof.
  intros Hp fuel. induction fuel as [|fuel IH]; intros size skipped r Hf; cbn.
  - destruct (Z.ltb_spec skipped size); [lia|]. by split.
  - destruct (Z.ltb_spec skipped size); [|by split].
    set (chunk := Z.min (size - skipped) chunk_size).
    assert (Hc : (0 < chunk)%Z) by (unfold chunk, chunk_size; lia).
    pose proof (Hp (Z.to_nat chunk) r ltac:(lia)) as Hp'.
    destruct (rd (Z.to_nat chunk) r) as [r' [bs e]] eqn:Er. destruct Hp' as [H1 H2].
    destruct e as [e|].
    + split; [lia|]. intros [= ->]. exists (Z.to_nat chunk), r. by rewrite Er.
    + destruct bs as [|b bs]; [by destruct H2|].
      specialize (IH size (skipped + Z.of_nat (length (b :: bs)))%Z r').
      cbn [length] in *. specialize (IH ltac:(lia)).
      destruct (skip_loop _ _ _ _ r') as [r'' [z e]]. split; [lia|tauto].
Qed.
Lemma skip_reading_steady {R} (rd : reader R) mu size : progress rd mu ->
  steady mu 0 (only_err (skip_reading rd size)).
Proof.
  intros Hp s. unfold only_err, skip_reading. destruct (size =? 0)%Z; [cbn; lia|].
  pose proof (skip_loop_steady rd mu Hp (Z.to_nat size) size 0 s) as H.
  destruct (skip_loop _ _ _ _ s) as [s' [z e]]. specialize (H ltac:(lia)). destruct e; cbn; lia.
Qed.

(** ** Writers *)

Lemma write_all_safe {W} (wr : writer W) bs : safe (write_all wr bs).
Proof. intros w. unfold write_all. destruct (wr bs w) as [w' [n [e|]]]; done. Qed.
Lemma write_uint_safe {W} (wr : writer W) k n : safe (write_uint wr k n).
Proof. apply write_all_safe. Qed.
Lemma only_err_safe {S N} (m : S -> S * (N * option err)) : safe (only_err m).
Proof. intros s. unfold only_err. destruct (m s) as [s' [n [e|]]]; done. Qed.
Lemma bw_flush_safe {W} (wr : writer W) : safe (bw_flush wr).
Proof.
  intros b. unfold bw_flush. destruct (bw_err b); [done|]. destruct (bw_buf b); [done|].
  destruct (wr _ _) as [w' [n [e|]]]; [done|]. by destruct (_ <? _).
Qed.
Lemma fseek_safe off w : safe (fseek off w).
Proof. intros f. unfold fseek. destruct (f_closed f); [done|]. cbn zeta. destruct (match f_kind f with KBuf => _ | KOs => _ end); done. Qed.
Lemma ftruncate_safe n : safe (ftruncate n).
Proof. intros f. unfold ftruncate. destruct (f_closed f); [done|]. destruct (next_fault f) as [[|k] g]; [|done]. by destruct (n <? 0)%Z. Qed.
Lemma fclose_safe : safe fclose.
Proof. intros f. unfold fclose. by destruct (f_kind f), (f_closed f), (next_fault f) as [[|k] g]. Qed.
Lemma ignore_safe {S A} (m : io S A) : safe (ignore m).
Proof. done. Qed.
Lemma with_bufio_safe {A} (m : io (bwriter file) A) : safe m -> safe (with_bufio m).
Proof. intros H f. unfold with_bufio. specialize (H (new_bwriter f)). by destruct (m (new_bwriter f)). Qed.
Lemma with_breader_safe {A} (m : io (breader file) A) : safe m -> safe (with_breader m).
Proof. intros H f. unfold with_breader. specialize (H (new_breader f)). by destruct (m (new_breader f)). Qed.
Lemma under_reader_safe {A} (m : io file A) : safe m -> safe (under_reader m).
Proof. intros H b. unfold under_reader. specialize (H (br_r b)). by destruct (m (br_r b)). Qed.

Ltac safe_tac := repeat first
  [ apply safe_bind; intros | apply safe_maperr | apply safe_ret | apply safe_fail | apply safe_fst | apply safe_snd
  | apply write_uint_safe | apply write_all_safe | apply only_err_safe | apply bw_flush_safe | apply fseek_safe
  | apply ftruncate_safe | apply fclose_safe | apply ignore_safe | apply with_bufio_safe | apply with_breader_safe
  | apply under_reader_safe | assumption | match goal with |- safe (if ?c then _ else _) => destruct c end ].

Lemma write_locked_safe off b : safe (write_locked_at off b).
Proof. unfold write_locked_at. safe_tac. Qed.
Lemma is_locked_safe off : safe (is_locked_at off).
Proof.
  unfold is_locked_at. apply safe_bind; [safe_tac|]. intros pos. apply safe_bind; [safe_tac|]. intros _.
  apply safe_bind; [|intros b; safe_tac].
  intros f. unfold read_one. destruct (fread 1 f) as [f' [bs [e|]]]; done.
Qed.

(** ** Delta files *)

Section DeltaRead.
  Context {R : Type} (rd : reader R) (mu : R -> nat) (Hp : progress rd mu).

  Lemma d_read_prefix_steady : steady mu 0 (d_read_prefix rd).
  Proof using Hp.
    unfold d_read_prefix. apply (steady_le _ (length delta_prefix + 0)); [lia|].
    apply steady_bind; [by apply read_full_steady|]. intros a.
    destruct (bool_decide _); [apply steady_ret|apply steady_fail].
  Qed.
  Lemma d_read_header_steady : steady mu 0 (d_read_header rd).
  Proof using Hp.
    unfold d_read_header. apply (steady_le _ (Z.to_nat delta_header_size + 0)); [lia|].
    apply steady_bind; [by apply read_full_steady|]. intros a. apply steady_ret.
  Qed.
  Lemma d_read_entry_steady : steady mu 18 (d_read_entry rd).
  Proof using Hp.
    unfold d_read_entry. apply (steady_bind mu 1 17); [by apply read_uint_steady|]. intros ?.
    apply (steady_bind mu 8 9); [by apply read_uint_steady|]. intros ?.
    apply (steady_bind mu 8 1); [by apply read_uint_steady|]. intros ?.
    apply (steady_bind mu 1 0); [by apply read_uint_steady|]. intros ?. apply steady_ret.
  Qed.
  Lemma load_entries_safe n c : safe (load_entries rd n c).
  Proof using Hp.
    revert c. induction n as [|n IH]; intros c; cbn; [done|].
    apply safe_bind; [|intros e; apply IH]. apply safe_maperr. eapply steady_safe, d_read_entry_steady.
  Qed.
  Lemma d_load_safe : safe (d_load rd).
  Proof using Hp.
    unfold d_load. apply safe_bind; [eapply steady_safe, d_read_prefix_steady|]. intros _.
    apply safe_bind; [eapply steady_safe, d_read_header_steady|]. intros h.
    destruct (negb _); [done|]. apply safe_bind; [apply load_entries_safe|done].
  Qed.

  Lemma d_write_entry_safe {W} (wr : writer W) e : safe (d_write_entry wr e).
  Proof. unfold d_write_entry. safe_tac. Qed.

  Lemma recover_loop_safe fuel : forall count s, (mu (fst s) < fuel) ->
    returned (snd (recover_loop rd fuel count s)).
  Proof using Hp.
    induction fuel as [|fuel IH]; intros count [r t] Hf; [lia|]. cbn [recover_loop].
    pose proof (d_read_entry_steady r) as Hr. unfold on_fst. cbn in Hf.
    destruct (d_read_entry rd r) as [r' [e|x| |]]; cbn in Hr; [|done|tauto..].
    destruct Hr as (_ & _ & Hr).
    destruct (negb _); [apply IH; cbn; lia|]. unfold iobind, on_snd.
    pose proof (d_write_entry_safe fwrite e t) as Hw.
    destruct (d_write_entry fwrite e t) as [t' [[]|x| |]]; cbn in Hw; [|done..]. apply IH. cbn. lia.
  Qed.

  Lemma d_write_prefix_safe {W} (wr : writer W) : safe (d_write_prefix wr).
  Proof. unfold d_write_prefix. safe_tac. Qed.
  Lemma d_write_header_safe {W} (wr : writer W) h : safe (d_write_header wr h).
  Proof. unfold d_write_header. safe_tac. Qed.

  Lemma recover_to_safe fuel s : mu (fst s) < fuel -> returned (snd (recover_to rd fuel s)).
  Proof using Hp.
    destruct s as [r t]. cbn. intros Hf. unfold recover_to, iobind at 1, on_snd at 1.
    pose proof (d_write_prefix_safe fwrite t) as Hw.
    destruct (d_write_prefix fwrite t) as [t' [[]|x| |]]; cbn in Hw; [|done..].
    unfold on_fst at 1. pose proof (d_read_prefix_steady r) as H1.
    destruct (d_read_prefix rd r) as [r1 [[]|x| |]]; cbn in H1; [| |tauto..].
    2: { apply safe_snd, d_write_header_safe. }
    unfold on_fst at 1. pose proof (d_read_header_steady r1) as H2.
    destruct (d_read_header rd r1) as [r2 [h|x| |]]; cbn in H2; [| |tauto..].
    2: { apply safe_snd, d_write_header_safe. }
    unfold iobind at 1, on_snd at 1.
    pose proof (d_write_header_safe fwrite (DHeader delta_version 0 (dh_count h)) t') as H3.
    destruct (d_write_header _ _ t') as [t'' [[]|x| |]]; cbn in H3; [|done..].
    unfold iobind at 1. pose proof (recover_loop_safe fuel 0 (r2, t'') ltac:(cbn; lia)) as H4.
    destruct (recover_loop rd fuel 0 (r2, t'')) as [s' [n|x| |]]; cbn in H4; [|done..].
    destruct (negb _); [|done].
    apply safe_bind; [safe_tac|]. intros _. apply safe_snd, d_write_header_safe.
  Qed.
End DeltaRead.

Lemma copy_loop_safe {R W} (rd : reader R) (wr : writer W) mu csz : progress rd mu -> 0 < csz ->
  forall fuel n s, mu (fst s) < fuel -> returned (snd (copy_loop rd wr csz fuel n s)).
Proof.
  intros Hp Hc fuel. induction fuel as [|fuel IH]; intros n [r w] Hf; [lia|]. cbn in Hf |- *.
  specialize (Hp csz r Hc). destruct (rd csz r) as [r' [bs e]]. destruct Hp as [H1 H2].
  destruct bs as [|b bs].
  - destruct e as [e|]; [by destruct e|by destruct H2].
  - destruct (wr (b :: bs) w) as [w' [nw [ew|]]]; [done|].
    destruct (negb _); [done|]. destruct e as [e|]; [by destruct e|]. apply IH. cbn in *. lia.
Qed.

Lemma fseek_unread off w f : f_data (fst (fseek off w f)) = f_data f.
Proof.
  unfold fseek. destruct (f_closed f); [done|]. cbn zeta.
  by destruct (match f_kind f with KBuf => _ | KOs => _ end).
Qed.

Lemma d_recover_safe csz : 0 < csz -> safe (d_recover csz).
Proof.
  intros Hc f. unfold d_recover.
  pose proof (recover_to_safe fread unread fread_progress (S (length (f_data f))) (f, open_file KBuf [])) as H1.
  destruct (recover_to _ _ _) as [[f1 tmp] o]. cbn in H1. specialize (H1 ltac:(unfold unread; lia)).
  destruct o as [[]|x| |]; cbn in H1; [|done..].
  match goal with |- context [iobind ?m ?k (f1, tmp)] => assert (H : safe (iobind m k)) end.
  { apply safe_bind; [safe_tac|]. intros _. apply safe_bind; [safe_tac|]. intros _.
    apply safe_bind; [|intros size; safe_tac]. intros [g t].
    pose proof (copy_loop_safe fread fwrite unread csz fread_progress Hc (S (length (f_data t))) 0 (t, g)) as H2.
    destruct (copy_loop _ _ _ _ _ _) as [[t' g'] o]. cbn in *. apply H2. unfold unread. lia. }
  specialize (H (f1, tmp)). destruct (iobind _ _ (f1, tmp)) as [[g t] [z|x| |]]; done.
Qed.

Lemma d_open_safe : safe d_open.
Proof.
  unfold d_open. apply safe_bind; [safe_tac|]. intros size. apply safe_bind.
  - destruct (size =? 0)%Z.
    + apply safe_bind; [apply d_write_prefix_safe|]. intros _.
      apply safe_bind; [apply d_write_header_safe|done].
    + apply safe_bind; [safe_tac|]. intros _. eapply d_load_safe, fread_progress.
  - intros x. apply safe_bind; [|done]. apply safe_maperr, write_locked_safe.
Qed.

Lemma d_open_maybe_recover_safe csz : 0 < csz -> safe (d_open_maybe_recover csz).
Proof.
  intros Hc. unfold d_open_maybe_recover. apply safe_bind; [apply safe_maperr, is_locked_safe|]. intros l.
  apply safe_bind; [destruct l; [by apply safe_maperr, d_recover_safe|done]|]. intros _ f.
  pose proof (d_open_safe f) as H. by destruct (d_open f) as [f' [x|e| |]].
Qed.

Lemma on_dfile_safe {A} (m : io file A) : safe m -> safe (on_dfile m).
Proof. intros H s. unfold on_dfile. specialize (H (ds_file s)). by destruct (m (ds_file s)). Qed.

Lemma flush_header_safe bsz : safe (flush_header bsz).
Proof.
  intros s. unfold flush_header. apply on_dfile_safe. apply safe_bind; [safe_tac|]. intros _.
  apply with_bufio_safe. apply safe_bind; [apply safe_maperr, d_write_header_safe|]. intros _. safe_tac.
Qed.
Lemma flush_loop_safe bsz l : safe (flush_loop bsz l).
Proof.
  induction l as [|[u d] l IH]; cbn; [done|].
  apply safe_bind; [apply safe_fst, safe_maperr, d_write_entry_safe|]. intros _ [b c]. apply IH.
Qed.
Lemma flush_entries_safe bsz sh : safe (flush_entries bsz sh).
Proof.
  intros s. unfold flush_entries.
  match goal with |- context [iobind ?m ?k ?x] => assert (H : safe (iobind m k)); [|specialize (H x)] end.
  { apply safe_bind; [apply flush_loop_safe|]. intros _. safe_tac. }
  destruct (iobind _ _ _) as [[b c] [[]|e| |]]; done.
Qed.
Lemma d_flush_safe bsz sh : safe (d_flush bsz sh).
Proof.
  unfold d_flush. apply safe_bind; [apply safe_maperr, flush_header_safe|]. intros _.
  apply safe_maperr, flush_entries_safe.
Qed.
Lemma d_close_safe bsz sh : safe (d_close bsz sh).
Proof.
  unfold d_close. apply safe_bind; [apply safe_maperr, d_flush_safe|]. intros _.
  apply safe_bind; [apply safe_maperr, on_dfile_safe, write_locked_safe|]. intros _.
  apply safe_maperr, on_dfile_safe, fclose_safe.
Qed.

(** ** Index files *)

Lemma closing_safe c {A} (m : io file A) : safe m -> safe (closing c m).
Proof. intros H f. unfold closing. specialize (H f). by destruct (m f) as [f' [a|e| |]]. Qed.
Lemma closing_bw_safe c {A} (m : io (bwriter file) A) : safe m -> safe (closing_bw c m).
Proof. intros H f. unfold closing_bw. specialize (H f). by destruct (m f) as [f' [a|e| |]]. Qed.

Lemma i_create_safe bsz : safe (i_create bsz).
Proof. unfold i_create, i_write_prefix, i_write_header. safe_tac. Qed.

Lemma i_load_safe rsz : 0 < rsz -> safe (i_load rsz).
Proof.
  intros Hr. pose proof (br_read_progress fread unread rsz Hr fread_progress) as Hp.
  unfold i_load. apply safe_bind; [safe_tac|]. intros _. apply with_breader_safe.
  apply safe_bind.
  { apply safe_maperr. unfold i_read_prefix. apply safe_bind; [by eapply steady_safe, read_full_steady|].
    intros a. by destruct (bool_decide _). }
  intros _. apply safe_bind.
  { apply safe_maperr. unfold i_read_header. apply safe_bind; [by eapply steady_safe, read_full_steady|done]. }
  intros h. destruct (negb _); [done|].
  apply safe_bind; [apply safe_maperr, under_reader_safe, write_locked_safe|]. intros _.
  generalize (∅ : gmap Z Z). induction (Z.to_nat (ih_count h)) as [|n IH]; intros m; cbn; [done|].
  apply safe_bind; [|intros e; apply IH]. apply safe_maperr. unfold i_read_entry.
  apply safe_bind; [by eapply steady_safe, read_uint_steady|]. intros ?.
  apply safe_bind; [by eapply steady_safe, read_uint_steady|done].
Qed.

Lemma i_open_safe bsz rsz c : 0 < rsz -> safe (i_open bsz rsz c).
Proof.
  intros Hr. unfold i_open. apply safe_bind; [apply closing_safe; safe_tac|]. intros size.
  apply safe_bind; [|done]. destruct (0 <? size)%Z.
  - by apply closing_safe, safe_maperr, i_load_safe.
  - apply safe_bind; [apply closing_safe, safe_maperr, i_create_safe|done].
Qed.

Lemma i_close_safe bsz sh : safe (i_close bsz sh).
Proof.
  intros s. unfold i_close.
  match goal with |- context [iobind ?m ?k ?x] => assert (H : safe (iobind m k)); [|specialize (H x)] end.
  { apply safe_bind.
    { apply closing_safe. unfold i_save_header. apply safe_bind; [apply closing_safe; safe_tac|]. intros _.
      apply with_bufio_safe, safe_bind; [|intros _; safe_tac].
      apply closing_bw_safe. unfold i_write_header. safe_tac. }
    intros _. apply safe_bind; [|intros _; destruct (is_closer s); [apply fclose_safe|done]].
    apply closing_safe. unfold i_save_entries. apply safe_bind; [safe_tac|]. intros _.
    apply with_bufio_safe, safe_bind; [|intros _; safe_tac].
    induction (shuf sh _) as [|[a b] l IH]; cbn; [done|].
    apply safe_bind; [|done]. unfold i_write_entry. safe_tac. }
  destruct (iobind _ _ _) as [f o]. done.
Qed.

(** ** Profile databases *)

Section RecdbRead.
  Context {R : Type} (rd : reader R) (mu : R -> nat) (Hp : progress rd mu).
  Let mu2 : R * rentry -> nat := fun p => mu (fst p).

  Lemma r_read_entry_data_steady : steady mu2 16 (r_read_entry_data rd).
  Proof using Hp.
    unfold r_read_entry_data, mu2.
    apply (steady_bind _ 8 8); [by apply steady_fst, read_uint_steady|]. intros ?.
    apply (steady_bind _ 4 4); [by apply steady_fst, read_uint_steady|]. intros ?.
    apply (steady_bind _ 0 4); [by apply steady_fst, read_uint64s_steady|]. intros ?.
    apply (steady_bind _ 4 0); [by apply steady_fst, read_uint_steady|]. intros ?.
    apply (steady_bind _ 0 0); [by apply steady_fst, read_uint64s_steady|]. intros ?. cbv zeta.
    apply (steady_bind _ 0 0); [by apply steady_snd|]. intros ?.
    apply (steady_bind _ 0 0); [intros s; cbn; lia|]. intros ?.
    apply (steady_bind _ 0 0); [by apply steady_snd|]. intros ?.
    destruct (_ <? _)%Z; [apply steady_fail|apply steady_ret].
  Qed.
  Lemma r_read_entry_steady : steady mu2 21 (r_read_entry rd).
  Proof using Hp.
    unfold r_read_entry, mu2. apply steady_maperr.
    apply (steady_bind _ 4 17); [by apply steady_fst, read_uint_steady|]. intros ?.
    apply (steady_bind _ 0 17); [by apply steady_snd|]. intros ?.
    apply (steady_bind _ 1 16); [by apply steady_fst, read_full_steady|]. intros ?.
    apply (steady_bind _ 0 16); [by apply steady_snd|]. intros ?.
    apply (steady_bind _ 16 0); [apply r_read_entry_data_steady|]. intros ?. cbv zeta.
    apply (steady_bind _ 0 0); [by apply steady_fst, skip_reading_steady|]. intros ?. apply steady_ret.
  Qed.
End RecdbRead.

(** Bytes an iterator has not used yet. *)
Definition it_unread (it : iter) : nat := length (br_buf (it_reader it)) + unread (br_r (it_reader it)).

Lemma r_next_steady rsz : 0 < rsz -> steady it_unread 21 (r_next rsz).
Proof.
  intros Hr it. pose proof (br_read_progress fread unread rsz Hr fread_progress) as Hp.
  unfold r_next. destruct (negb (r_has_next it)); [cbn; lia|].
  pose proof (r_read_entry_steady _ _ Hp (it_reader it, it_entry it)) as H.
  destruct (r_read_entry _ _) as [[b e] [n|x| |]]; cbn in H |- *; unfold it_unread; cbn; tauto.
Qed.

Lemma r_new_iterator_safe : safe r_new_iterator.
Proof.
  intros f. unfold r_new_iterator. cbv zeta.
  match goal with |- context [iobind ?m ?k f] => assert (H : safe (iobind m k)); [|specialize (H f)] end.
  { apply safe_bind; [safe_tac|]. intros _. apply safe_bind.
    - apply safe_maperr. unfold r_read_prefix.
      apply safe_bind; [by eapply steady_safe, read_full_steady, fread_progress|]. intros a. by destruct (bool_decide _).
    - intros _. apply safe_maperr. unfold r_read_header.
      apply safe_bind; [by eapply safe_maperr, steady_safe, read_full_steady, fread_progress|done]. }
  destruct (iobind _ _ f) as [f' [h|e| |]]; [|done..]. by destruct (negb _).
Qed.

Lemma r_rewind_safe : safe r_rewind.
Proof.
  intros it. unfold r_rewind. pose proof (fseek_safe recdb_entries_offset SeekStart (it_file it)) as H.
  by destruct (fseek _ _ _) as [f [z|e| |]].
Qed.

Lemma r_set_previous_safe e it : re_data e <> DNil -> re_data e <> DNilProfile ->
  returned (snd (r_set_previous e it)).
Proof.
  intros N1 N2. unfold r_set_previous. destruct (_ =? 0)%Z; [done|]. destruct (negb _); [done|]. cbv zeta.
  match goal with |- context [iobind ?m ?k ?x] => assert (H : safe (iobind m k)); [|specialize (H x)] end.
  { apply safe_bind; [safe_tac|]. intros _. apply safe_bind; [|intros n; by destruct (negb _)].
    apply safe_maperr. unfold r_write_entry. apply safe_maperr.
    apply safe_bind; [safe_tac|]. intros _. apply safe_bind; [safe_tac|]. intros _.
    apply safe_bind.
    - unfold r_write_entry_data, write_uint64s. destruct (re_data e); [done|done| |done].
      apply safe_bind; [safe_tac|]. intros _. apply safe_bind; [safe_tac|]. intros _.
      apply safe_bind; [safe_tac|]. intros _. apply safe_bind; [safe_tac|]. intros _.
      apply safe_bind; [safe_tac|]. intros _. done.
    - intros n. cbv zeta. apply safe_bind; [|done]. destruct (0 <? _)%Z; [safe_tac|done]. }
  destruct (iobind _ _ _) as [f [z|x| |]]; done.
Qed.

(** ** The loops that cannot report divergence as an outcome *)

Lemma fread_no_diverge n f : snd (snd (fread n f)) <> Some EDiverge.
Proof.
  unfold fread. destruct (f_closed f); [done|]. destruct (next_fault f) as [[|k] f']; [|done].
  cbn zeta. destruct (f_kind f'), n, (drop (f_pos f') (f_data f')); done.
Qed.
Lemma fwrite_result p f :
  (snd (fwrite p f)) = (length p, None) \/
  exists k e, snd (fwrite p f) = (k, Some e) /\ e <> EDiverge.
Proof.
  unfold fwrite. destruct (f_closed f); [right; by exists 0, EClosed|].
  destruct (next_fault f) as [[|k] f']; [by left|right]. cbn. eauto.
Qed.

Lemma bw_write_no_diverge size p (b : bwriter file) : bw_err b <> Some EDiverge ->
  snd (snd (bw_write fwrite size p b)) <> Some EDiverge /\
  bw_err (fst (bw_write fwrite size p b)) <> Some EDiverge.
Proof.
  intros Hb. unfold bw_write.
  assert (D : forall fuel nn q w, snd (snd (bw_write_loop fwrite size (S (S fuel)) nn q (BWriter w [] None)))
      <> Some EDiverge /\ bw_err (fst (bw_write_loop fwrite size (S (S fuel)) nn q (BWriter w [] None))) <> Some EDiverge).
  { intros fuel nn q w. cbn [bw_write_loop bw_err bw_buf bw_w]. destruct (_ <=? _); [done|].
    destruct (fwrite_result q w) as [E|(k & e & E & He)]; destruct (fwrite q w) as [w' [n e']];
      cbn in E; injection E as -> ->.
    - rewrite drop_all. cbn [bw_write_loop bw_err]. cbn [length]. done.
    - cbn [bw_write_loop bw_err]. split; cbn; congruence. }
  destruct p as [|x p].
  { cbn [length Nat.add bw_write_loop]. destruct b as [w buf [e|]]; [done|]. cbn. done. }
  cbn [length]. replace (S (length p) + 2) with (S (S (S (length p)))) by lia.
  destruct b as [w buf [e|]]; [cbn in *; done|].
  destruct buf as [|y buf]; [apply (D (S (length p)))|].
  change (bw_write_loop fwrite size (S (S (S (length p)))) 0 (x :: p) (BWriter w (y :: buf) None)) with
    (if (length (x :: p) <=? size - length (y :: buf))
     then (BWriter w ((y :: buf) ++ x :: p) None, (0 + length (x :: p), None))
     else let avail := size - length (y :: buf) in
       let '(b', _) := bw_flush fwrite (BWriter w ((y :: buf) ++ take avail (x :: p)) None) in
       bw_write_loop fwrite size (S (S (length p))) (0 + avail) (drop avail (x :: p)) b').
  destruct (_ <=? _); [done|]. cbv zeta. unfold bw_flush. cbn [bw_err bw_buf bw_w app].
  set (q := y :: buf ++ _).
  destruct (fwrite_result q w) as [E|(k & e & E & He)]; destruct (fwrite q w) as [w' [n e']];
    cbn in E; injection E as -> ->.
  - rewrite Nat.ltb_irrefl. apply D.
  - cbn [bw_write_loop bw_err]. split; cbn; congruence.
Qed.

Lemma write_zeros_no_diverge size f : snd (snd (write_zeros fwrite size f)) <> Some EDiverge.
Proof.
  unfold write_zeros.
  assert (D : forall fuel total g, Z.to_nat (size - total) <= fuel ->
    snd (snd (write_zeros_loop fwrite fuel size total g)) <> Some EDiverge).
  { induction fuel as [|fuel IH]; intros total g Hf; cbn.
    - destruct (Z.ltb_spec total size); [lia|done].
    - destruct (Z.ltb_spec total size); [|done].
      set (q := zeros _). assert (Hq : 0 < length q).
      { unfold q, zeros. rewrite replicate_length. unfold chunk_size. lia. }
      destruct (fwrite_result q g) as [E|(k & e & E & He)]; destruct (fwrite q g) as [g' [n e']];
        cbn in E; injection E as -> ->.
      + apply IH. lia.
      + cbn. congruence. }
  apply D. lia.
Qed.

Lemma skip_reading_no_diverge size f : snd (snd (skip_reading fread size f)) <> Some EDiverge.
Proof.
  unfold skip_reading. destruct (size =? 0)%Z; [done|].
  pose proof (skip_loop_steady fread unread fread_progress (Z.to_nat size) size 0 f ltac:(lia)) as H.
  destruct (skip_loop _ _ _ _ f) as [f' [n e]]. cbn. intros E. destruct H as [_ H].
  destruct (H E) as (k & r0 & E'). by apply fread_no_diverge in E'.
Qed.
