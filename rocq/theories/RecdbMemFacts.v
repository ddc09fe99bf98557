(** Facts about the memory requested by reading an entry. *)
From Verif Require Import Base GoIO GoIOFacts CodecFacts Profile Recdb RecdbMem RobustFacts.

(** ** Leaving the counter out *)

Definition erases {S A} (m : io (S * Z) A) (m' : io S A) : Prop := forall s z,
  (fst (fst (m (s, z))), snd (m (s, z))) = m' s.

Lemma erases_fst {S A} (m : io S A) : erases (on_fst m) m.
Proof. intros s z. unfold on_fst. by destruct (m s). Qed.
Lemma erases_ret {S A} (a : A) : erases (S := S) (ioret a) (ioret a).
Proof. done. Qed.
Lemma erases_fail {S A} e : @erases S A (iofail e) (iofail e).
Proof. done. Qed.
Lemma erases_lift {S A} o : @erases S A (iolift o) (iolift o).
Proof. done. Qed.
Lemma erases_bind {S A B} (m : io (S * Z) A) m' (g : A -> io (S * Z) B) g' :
  erases m m' -> (forall a, erases (g a) (g' a)) -> erases (iobind m g) (iobind m' g').
Proof.
  intros Hm Hg s z. specialize (Hm s z). unfold iobind. destruct (m (s, z)) as [[s' z'] [a|e| |]]; cbn in Hm; rewrite <- Hm; try done.
  apply Hg.
Qed.
Lemma erases_maperr {S A} g (m : io (S * Z) A) m' : erases m m' -> erases (iomaperr g m) (iomaperr g m').
Proof.
  intros Hm s z. specialize (Hm s z). unfold iomaperr. by destruct (m (s, z)) as [[s' z'] [a|e| |]]; cbn in Hm; rewrite <- Hm.
Qed.
Lemma erases_make_and_read {R} (rd : reader R) n :
  erases (make_and_read rd n) (on_fst (read_uint64s rd (Z.to_nat n))).
Proof. intros [r e] z. unfold make_and_read, iobind, request, on_fst. cbn. by destruct (read_uint64s _ _ r). Qed.

Lemma erases_read_entry_data {R} (rd : reader R) : erases (r_read_entry_data_mem rd) (r_read_entry_data rd).
Proof.
  unfold r_read_entry_data_mem, r_read_entry_data.
  repeat (apply erases_bind; [apply erases_fst || apply erases_make_and_read || apply erases_lift|intros ?]; cbv zeta).
  destruct (_ <? _); [apply erases_fail|apply erases_ret].
Qed.
Lemma erases_read_entry {R} (rd : reader R) : erases (r_read_entry_mem rd) (r_read_entry rd).
Proof.
  unfold r_read_entry_mem, r_read_entry. apply erases_maperr.
  repeat (apply erases_bind; [apply erases_fst || apply erases_read_entry_data|intros ?]; cbv zeta).
  apply erases_ret.
Qed.

(** ** A call that succeeds has read half of what it requested *)

Section Frugal.
  Context {R : Type} (rd : reader R) (mu : R -> nat) (Hp : progress rd mu).

  Definition frugal {A} (m : io ((R * rentry) * Z) A) : Prop := forall r e z,
    match m ((r, e), z) with
    | (((r', _), z'), Ret _) => z' + 2 * Z.of_nat (mu r') <= z + 2 * Z.of_nat (mu r)
    | _ => True
    end.

  Lemma frugal_bind {A B} (m : io ((R * rentry) * Z) A) (g : A -> io ((R * rentry) * Z) B) :
    frugal m -> (forall a, frugal (g a)) -> frugal (iobind m g).
  Proof using.
    intros Hm Hg r e z. unfold iobind. specialize (Hm r e z).
    destruct (m _) as [[[r' e'] z'] [a|x| |]]; try done. specialize (Hg a r' e' z').
    destruct (g a _) as [[[r'' e''] z''] [b|x| |]]; try done. lia.
  Qed.
  Lemma frugal_read {A} k (m : io R A) : steady mu k m -> frugal (on_fst (on_fst m)).
  Proof using.
    intros Hm r e z. unfold on_fst. specialize (Hm r). destruct (m r) as [r' [a|x| |]]; try done. cbn in Hm. lia.
  Qed.
  Lemma frugal_entry {A} (m : io rentry A) : frugal (on_fst (on_snd m)).
  Proof using. intros r e z. unfold on_fst, on_snd. destruct (m e) as [e' [a|x| |]]; try done. Qed.
  Lemma frugal_ret {A} (a : A) : frugal (ioret a).
  Proof using. intros r e z. cbn. lia. Qed.
  Lemma frugal_lift {A} (o : outcome A) : frugal (iolift o).
  Proof using. intros r e z. cbn. destruct o; try done. Qed.
  Lemma frugal_make n : frugal (make_and_read rd n).
  Proof using Hp.
    intros r e z. unfold make_and_read, iobind, request, on_fst. cbn.
    unfold read_uint64s, iobind.
    pose proof (read_full_steady rd mu (8 * Z.to_nat n) Hp r) as Hr. cbn [Nat.mul] in Hr.
    destruct (read_full rd _ r) as [r' [a|x| |]]; try done. cbn in *. lia.
  Qed.

  Lemma frugal_fail {A} x : @frugal A (iofail x).
  Proof using. done. Qed.
  Lemma frugal_maperr {A} g (m : io ((R * rentry) * Z) A) : frugal m -> frugal (iomaperr g m).
  Proof using.
    intros Hm r e z. unfold iomaperr. specialize (Hm r e z). by destruct (m _) as [[[r' e'] z'] [a|x| |]].
  Qed.
End Frugal.

Section FrugalRead.
  Context {R : Type} (rd : reader R) (mu : R -> nat) (Hp : progress rd mu).

  Lemma frugal_only_err k (m : R -> R * (Z * option err)) :
    steady mu k (only_err m) -> frugal mu (on_fst (on_fst (only_err m))).
  Proof using. apply frugal_read. Qed.

  Lemma r_read_entry_data_frugal : frugal mu (r_read_entry_data_mem rd).
  Proof using Hp.
    unfold r_read_entry_data_mem.
    repeat (apply frugal_bind; [
      (eapply frugal_read; by apply read_uint_steady) || by apply frugal_make || apply frugal_entry || apply frugal_lift
      |intros ?]; cbv zeta).
    destruct (_ <? _); [apply frugal_fail|apply frugal_ret].
  Qed.
  Lemma r_read_entry_frugal : frugal mu (r_read_entry_mem rd).
  Proof using Hp.
    unfold r_read_entry_mem. apply frugal_maperr.
    repeat (apply frugal_bind; [
      (eapply frugal_read; by apply read_uint_steady) || (eapply frugal_read; by apply read_full_steady)
      || apply frugal_entry || apply r_read_entry_data_frugal
      || (eapply frugal_read; by apply skip_reading_steady)
      |intros ?]; cbv zeta).
    apply frugal_ret.
  Qed.
End FrugalRead.

(** ** … and an entry that was read fits its capacity *)

Lemma groups_length n : forall bs, (8 * n <= length bs)%nat -> length (groups n 8 bs) = n.
Proof.
  induction n as [|n IH]; intros bs H; [done|]. destruct bs as [|b bs]; [cbn in H; lia|].
  cbn [groups length]. f_equal. apply IH. rewrite drop_length. lia.
Qed.
Lemma read_full_loop_ret {R} (rd : reader R) fuel n : forall acc r r' l,
  read_full_loop rd fuel n acc r = (r', Ret l) -> (n <= length l)%nat.
Proof.
  induction fuel as [|fuel IH]; intros acc r r' l; cbn.
  - destruct (Nat.leb_spec n (length acc)); intros [= <- <-]; done.
  - destruct (Nat.leb_spec n (length acc)); [by intros [= <- <-]|].
    destruct (rd _ r) as [r1 [bs [e|]]]; [|apply IH].
    destruct (Nat.leb_spec n (length (acc ++ bs))); [by intros [= <- <-]|].
    destruct e; try done. by destruct (acc ++ bs).
Qed.

Lemma make_and_read_ret {R} (rd : reader R) n r e z st l :
  make_and_read rd n ((r, e), z) = (st, Ret l) ->
  exists r', st = ((r', e), z + 16 * n) /\ length l = Z.to_nat n.
Proof.
  unfold make_and_read, iobind, request, on_fst, read_uint64s, iobind. cbn -[read_full Z.mul Z.to_nat Nat.mul].
  destruct (read_full rd (8 * Z.to_nat n) r) as [r' [a|x| |]] eqn:Er; intros [= <- <-].
  exists r'. split; [f_equal; lia|]. rewrite map_length. apply groups_length. by eapply read_full_loop_ret.
Qed.

Lemma fst_fst_ret {R A} (m : io R A) (r : R) (e : rentry) (z : Z) st a :
  on_fst (on_fst m) ((r, e), z) = (st, Ret a) -> exists r', st = ((r', e), z).
Proof. unfold on_fst. destruct (m r) as [r' o]. intros [= <- ->]. by exists r'. Qed.

Lemma iobind_ret {S A B} (m : io S A) (g : A -> io S B) s st b : iobind m g s = (st, Ret b) ->
  exists s1 a, m s = (s1, Ret a) /\ g a s1 = (st, Ret b).
Proof. unfold iobind. destruct (m s) as [s1 [a|x| |]]; intros H; try done. by exists s1, a. Qed.

Lemma r_read_entry_data_fits {R} (rd : reader R) r e z r' e' z' size :
  r_read_entry_data_mem rd ((r, e), z) = (((r', e'), z'), Ret size) ->
  z' <= z + 2 * (size - 16) /\ size <= u32 (re_cap e - entry_header_size).
Proof.
  unfold r_read_entry_data_mem. intros H.
  apply iobind_ret in H as (s1 & user & H1 & H). apply fst_fst_ret in H1 as [r1 ->].
  apply iobind_ret in H as (s2 & nl & H2 & H). apply fst_fst_ret in H2 as [r2 ->].
  apply iobind_ret in H as (s3 & likes & H3 & H). apply make_and_read_ret in H3 as (r3 & -> & Hl).
  apply iobind_ret in H as (s4 & nd & H4 & H). apply fst_fst_ret in H4 as [r4 ->].
  apply iobind_ret in H as (s5 & dislikes & H5 & H). apply make_and_read_ret in H5 as (r5 & -> & Hd).
  cbv zeta in H. unfold iobind, on_fst, on_snd, set_data, get_cap, iolift in H. cbn in H.
  destruct (Z.ltb_spec (u32 (re_cap e - entry_header_size)) (like_size (Profile user likes dislikes))) as [Hlt|Hge];
    [done|].
  injection H as <- <- <- <-. split; [|done]. unfold like_size. cbn [p_likes p_dislikes]. lia.
Qed.

Lemma r_read_entry_fits {R} (rd : reader R) r e z r' e' z' c :
  r_read_entry_mem rd ((r, e), z) = (((r', e'), z'), Ret c) ->
  z' <= z + 2 * (u32 (c - entry_header_size) - 16).
Proof.
  unfold r_read_entry_mem. intros H.
  unfold iomaperr in H. match type of H with (match ?m _ with _ => _ end) = _ => set (mm := m) in H end.
  destruct (mm ((r, e), z)) as [s0 [c0|x| |]] eqn:H0; try done. injection H as -> ->. subst mm.
  apply iobind_ret in H0 as (s1 & cap & H1 & H). apply fst_fst_ret in H1 as [r1 ->].
  apply iobind_ret in H as (s2 & u & H2 & H). cbn in H2. injection H2 as <- <-.
  apply iobind_ret in H as (s3 & bytes & H3 & H). apply fst_fst_ret in H3 as [r3 ->].
  apply iobind_ret in H as (s4 & u' & H4 & H). cbn in H4. injection H4 as <- <-.
  apply iobind_ret in H as ([[r5 e5] z5] & size & H5 & H). apply r_read_entry_data_fits in H5. cbn in H5.
  apply iobind_ret in H as (s6 & u6 & H6 & H). apply fst_fst_ret in H6 as [r6 ->].
  cbn in H. injection H as <- <- <- <-. lia.
Qed.

(** ** The request comes before the bytes *)

Lemma read_full_step {R F} (rd : reader R) ok rem (fr : R -> F) n r a b : lawful rd ok rem fr -> ok r ->
  rem r = a ++ b -> length a = n ->
  exists r', read_full rd n r = (r', Ret a) /\ ok r' /\ rem r' = b.
Proof.
  intros L Hr Ha Hn. destruct (follows_read_full ok rem fr rd n L r Hr) as (r' & E & Hok & Hrem & _).
  rewrite Ha, read_full_app in E, Hrem by done. by exists r'.
Qed.
Lemma read_full_none {R F} (rd : reader R) ok rem (fr : R -> F) n r : lawful rd ok rem fr -> ok r ->
  rem r = [] -> (0 < n)%nat -> exists r' e, read_full rd n r = (r', Err e).
Proof.
  intros L Hr Ha Hn. destruct (follows_read_full ok rem fr rd n L r Hr) as (r' & E & Hok & Hrem & _).
  rewrite Ha, read_full_short in E by (cbn; lia). by eexists _, _.
Qed.

Lemma r_read_entry_greedy {R F} (rd : reader R) ok rem (fr : R -> F) r e z c d u n :
  lawful rd ok rem fr -> ok r -> 0 < n < 2 ^ 32 ->
  rem r = be_enc 4 c ++ be_enc 1 d ++ be_enc 8 u ++ be_enc 4 n ->
  exists r' e' x, r_read_entry_mem rd ((r, e), z) = (((r', e'), z + 16 * n), Err x).
Proof.
  intros L Hr Hn Hrem.
  destruct (read_full_step rd ok rem fr 4 r _ _ L Hr Hrem) as (r1 & E1 & Hr1 & Hrem1); [apply be_enc_length|].
  destruct (read_full_step rd ok rem fr 1 r1 _ _ L Hr1 Hrem1) as (r2 & E2 & Hr2 & Hrem2); [apply be_enc_length|].
  destruct (read_full_step rd ok rem fr 8 r2 _ _ L Hr2 Hrem2) as (r3 & E3 & Hr3 & Hrem3); [apply be_enc_length|].
  rewrite <- (app_nil_r (be_enc 4 n)) in Hrem3.
  destruct (read_full_step rd ok rem fr 4 r3 _ _ L Hr3 Hrem3) as (r4 & E4 & Hr4 & Hrem4); [apply be_enc_length|].
  destruct (read_full_none rd ok rem fr (8 * Z.to_nat n) r4 L Hr4 Hrem4) as (r5 & x & E5); [lia|].
  unfold r_read_entry_mem, iomaperr, read_uint, iobind, on_fst, set_cap, set_deleted, on_snd, ioret.
  rewrite E1, E2. unfold r_read_entry_data_mem, iobind, on_fst, read_uint, iobind, ioret. rewrite E3, E4.
  rewrite be_dec_enc by (cbn; lia).
  unfold make_and_read, request, iobind, on_fst, read_uint64s, iobind. rewrite E5.
  eexists _, _, _. f_equal. f_equal. lia.
Qed.
