(** Proofs about a power failure after an entry of a recdb file was rewritten. *)
From Verif Require Import Base GoIO Lock Recdb SpecFile SpecRecdb SpecPower GoIOFacts RecdbCrashFacts.

(** The bytes of a file after some of the bytes of one write, inside of the file. *)
Lemma cut_lookup off bs d b i : (off + length bs <= length d)%nat ->
  replay (take b (wsets off bs)) d !! i =
    if decide (off <= i < off + length bs /\ i < off + b)%nat then bs !! (i - off)%nat else d !! i.
Proof.
  intros Hle. rewrite wsets_take, replay_wsets by (right; lia). unfold splice.
  replace (off - length d)%nat with 0%nat by lia. rewrite app_nil_r.
  assert (Ht : length (take off d) = off) by (rewrite take_length; lia).
  destruct (decide (i < off)%nat).
  - rewrite decide_False by lia. rewrite lookup_app_l by lia. by rewrite lookup_take.
  - rewrite lookup_app_r by lia. rewrite Ht.
    destruct (decide (i - off < length (take b bs))%nat) as [Hi | Hi].
    + rewrite lookup_app_l by lia. rewrite take_length in Hi.
      rewrite decide_True by lia. by rewrite lookup_take by lia.
    + rewrite lookup_app_r by lia. rewrite lookup_drop. rewrite take_length in *.
      rewrite decide_False by lia. f_equal. lia.
Qed.

Lemma cut_length off bs d b : (off + length bs <= length d)%nat -> length (replay (take b (wsets off bs)) d) = length d.
Proof.
  intros Hle. rewrite wsets_take, replay_wsets by (right; lia). unfold splice.
  replace (off - length d)%nat with 0%nat by lia. rewrite app_nil_r, !app_length, drop_length, !take_length. lia.
Qed.

(** So each byte of the file is the one of its block. *)
Lemma power_lookup B blocks len off bs d i : (off + length bs <= length d)%nat ->
  power_image B blocks len d (wsets off bs) !! i =
    if decide (off <= i < off + length bs /\ i < off + blocks (i / B))%nat then bs !! (i - off)%nat else d !! i.
Proof.
  intros Hle. unfold power_image. rewrite cut_length by done.
  destruct (decide (i < length d)%nat) as [Hi | Hi].
  - rewrite list_lookup_fmap, lookup_seq_lt by done. cbn [fmap option_fmap option_map Nat.add].
    rewrite cut_lookup by done.
    destruct (decide _) as [H | H].
    + destruct (bs !! (i - off)%nat) eqn:E; [done|]. apply lookup_ge_None in E. lia.
    + destruct (d !! i) eqn:E; [done|]. apply lookup_ge_None in E. lia.
  - rewrite decide_False by lia. rewrite (proj2 (lookup_ge_None d i)) by lia.
    apply lookup_ge_None. rewrite map_length, seq_length. lia.
Qed.

(** The bytes [new], each either there or not. *)
Definition mixed (new old m : list byte) : Prop :=
  length m = length old /\ forall i, m !! i = new !! i \/ m !! i = old !! i.

Lemma power_over B blocks len a old b new : length new = length old ->
  exists m, mixed new old m /\ power_image B blocks len (a ++ old ++ b) (wsets (length a) new) = a ++ m ++ b.
Proof.
  intros Hn. set (d := a ++ old ++ b). set (P := power_image B blocks len d (wsets (length a) new)).
  assert (Hle : (length a + length new <= length d)%nat) by (unfold d; rewrite !app_length; lia).
  assert (HP : forall i, P !! i = if decide (length a <= i < length a + length new /\ i < length a + blocks (i / B))%nat
    then new !! (i - length a)%nat else d !! i) by (intros i; by apply power_lookup).
  assert (HPl : length P = length d).
  { unfold P, power_image. by rewrite map_length, seq_length, cut_length. }
  exists (take (length old) (drop (length a) P)). split.
  - split.
    + rewrite take_length, drop_length, HPl. unfold d. rewrite !app_length. lia.
    + intros i. destruct (decide (i < length old)%nat) as [Hi | Hi].
      * rewrite lookup_take, lookup_drop, HP by done.
        destruct (decide _) as [H | H].
        -- left. f_equal. lia.
        -- right. unfold d. rewrite lookup_app_r by lia. rewrite lookup_app_l by lia. f_equal. lia.
      * left. rewrite (proj2 (lookup_ge_None new i)) by lia. apply lookup_ge_None. rewrite take_length. lia.
  - apply list_eq. intros i. rewrite HP.
    destruct (decide (i < length a)%nat).
    { rewrite decide_False by lia. unfold d. by rewrite !lookup_app_l by lia. }
    rewrite (lookup_app_r a) by lia.
    assert (Hml : length (take (length old) (drop (length a) P)) = length old).
    { rewrite take_length, drop_length, HPl. unfold d. rewrite !app_length. lia. }
    destruct (decide (i - length a < length old)%nat).
    + rewrite (lookup_app_l (take _ _)) by lia. rewrite lookup_take, lookup_drop by done.
      replace (length a + (i - length a))%nat with i by lia. by rewrite HP.
    + rewrite decide_False by lia. rewrite (lookup_app_r (take _ _)) by lia. rewrite Hml. unfold d.
      rewrite lookup_app_r by lia. by rewrite lookup_app_r by lia.
Qed.

(** If the bytes all lie in one block, a first part of them is there. *)
Lemma power_one_block B blocks len a old b new : length new = length old ->
  (length a / B = (length a + length old - 1) / B)%nat -> (0 < B)%nat -> let j := blocks (length a / B)%nat in
  power_image B blocks len (a ++ old ++ b) (wsets (length a) new) = a ++ (take j new ++ drop j old) ++ b.
Proof.
  intros Hn Hblk HB j.
  set (d := a ++ old ++ b).
  assert (Hle : (length a + length new <= length d)%nat) by (unfold d; rewrite !app_length; lia).
  transitivity (replay (take j (wsets (length a) new)) d).
  - apply list_eq. intros i. rewrite power_lookup, cut_lookup by done.
    destruct (decide (length a <= i < length a + length new)%nat) as [Hi | Hi].
    + assert (Hb : (i / B = length a / B)%nat).
      { pose proof (Nat.div_le_mono (length a) i B). pose proof (Nat.div_le_mono i (length a + length old - 1) B). lia. }
      rewrite Hb. fold j. done.
    + rewrite !decide_False by tauto. done.
  - rewrite wsets_take, replay_wsets by (right; lia). unfold splice.
    replace (length a - length d)%nat with 0%nat by lia. rewrite app_nil_r. unfold d. by apply over_bytes.
Qed.

(** A mixture of two entries of one capacity begins with that capacity. *)
Lemma mixed_head s s0 m : mixed (stored_bytes s) (stored_bytes s0) m -> st_cap s = st_cap s0 ->
  exists t, m = be32 (st_cap s0) ++ t.
Proof.
  intros [Hl Hm] Hc. exists (drop 4 m). rewrite <- (take_drop 4 m) at 1. f_equal.
  apply list_eq. intros i. destruct (decide (i < 4)%nat) as [Hi | Hi].
  - rewrite lookup_take by done. specialize (Hm i). unfold stored_bytes in Hm. rewrite Hc in Hm.
    rewrite !(lookup_app_l (be32 _)) in Hm by (change (length (be32 (st_cap s0))) with 4%nat; lia). tauto.
  - rewrite (proj2 (lookup_ge_None (be32 _) i)) by (change (length (be32 (st_cap s0))) with 4%nat; lia).
    apply lookup_ge_None. rewrite take_length. lia.
Qed.

Lemma mixed_Forall (P : byte -> Prop) new old m : mixed new old m -> Forall P new -> Forall P old -> Forall P m.
Proof.
  intros [_ Hm] Hn Ho. apply Forall_lookup_2. intros i x Hi. destruct (Hm i) as [E | E]; rewrite E in Hi.
  - eapply Forall_lookup_1; [exact Hn|done].
  - eapply Forall_lookup_1; [exact Ho|done].
Qed.
