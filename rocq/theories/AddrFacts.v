(** Facts about the address the server listens on. *)
From Verif Require Import Base Config Addr SpecNames NamesFacts.

Lemma index_byte_none c s : index_byte c s = None <-> c ∉ s.
Proof.
  induction s as [|b s IH]; cbn [index_byte]; [split; [intros _ H; inversion H|done]|].
  rewrite not_elem_of_cons. destruct (Z.eqb_spec b c) as [->|Hb]; [split; [done|by intros []]|].
  destruct (index_byte c s); cbn; split; try done.
  - intros [_ H]. by apply IH in H.
  - intros _. split; [congruence|by apply IH].
Qed.

Lemma has_byte_false c s : has_byte c s = false <-> c ∉ s.
Proof. rewrite <- index_byte_none. unfold has_byte. by destruct (index_byte c s). Qed.

Lemma has_byte_true c s : has_byte c s = true <-> c ∈ s.
Proof.
  destruct (has_byte c s) eqn:E; [|apply has_byte_false in E; split; [done|by intros ?]].
  split; [|done]. intros _. destruct (decide (c ∈ s)) as [|H]; [done|]. apply has_byte_false in H. congruence.
Qed.

Lemma index_byte_app c a b : c ∉ a -> index_byte c (a ++ c :: b) = Some (length a).
Proof.
  induction a as [|x a IH]; intros H; cbn [app index_byte length]; [by rewrite Z.eqb_refl|].
  apply not_elem_of_cons in H as [H1 H2]. destruct (Z.eqb_spec x c) as [->|_]; [done|]. by rewrite IH.
Qed.

Lemma last_index_none c s : c ∉ s -> last_index c s = None.
Proof.
  induction s as [|b s IH]; intros H; [done|]. apply not_elem_of_cons in H as [H1 H2].
  cbn [last_index]. rewrite IH by done. destruct (Z.eqb_spec b c); [congruence|done].
Qed.

Lemma last_index_app c a b : c ∉ b -> last_index c (a ++ c :: b) = Some (length a).
Proof.
  intros H. induction a as [|x a IH]; cbn [app last_index length].
  - by rewrite last_index_none, Z.eqb_refl.
  - by rewrite IH.
Qed.

Lemma itoa_plain z b : in_type I64 z -> b ∈ itoa z -> b = 45 \/ 48 <= b <= 57.
Proof.
  intros Hz. unfold itoa.
  assert (Hd : forall n fuel acc, (forall b, b ∈ acc -> 48 <= b <= 57) -> b ∈ itoa_digits fuel n acc -> 48 <= b <= 57).
  { intros n fuel. revert n. induction fuel as [|fuel IH]; intros n acc Ha; cbn [itoa_digits]; [apply Ha|].
    assert (Ha' : forall b, b ∈ (48 + n mod 10) :: acc -> 48 <= b <= 57).
    { intros x [->|Hx]%elem_of_cons; [pose proof (Z.mod_pos_bound n 10 eq_refl); lia|by apply Ha]. }
    destruct (n <? 10); [apply Ha'|by apply IH]. }
  destruct (z <? 0).
  - intros [->|H]%elem_of_cons; [by left|]. right. eapply Hd; [|exact H]. intros x Hx. by apply elem_of_nil in Hx.
  - intros H. right. eapply Hd; [|exact H]. intros x Hx. by apply elem_of_nil in Hx.
Qed.

Lemma drop_behind (a : list byte) x b : drop (S (length a)) (a ++ x :: b) = b.
Proof.
  replace (a ++ x :: b) with ((a ++ [x]) ++ b) by (by rewrite <- app_assoc).
  replace (S (length a)) with (length (a ++ [x])) by (rewrite app_length; cbn; lia). by rewrite drop_app.
Qed.

Lemma index_byte_some c s e : index_byte c s = Some e -> exists a b, s = a ++ c :: b /\ length a = e /\ c ∉ a.
Proof.
  revert e. induction s as [|x s IH]; intros e; cbn [index_byte]; [done|].
  destruct (Z.eqb_spec x c) as [->|Hx].
  - intros [= <-]. exists [], s. split; [done|]. split; [done|]. by apply not_elem_of_nil.
  - destruct (index_byte c s) as [e'|]; cbn; [|done]. intros [= <-]. destruct (IH e' eq_refl) as (a & b & -> & Hl & Hc).
    exists (x :: a), b. split; [done|]. split; [cbn; lia|]. apply not_elem_of_cons. split; [congruence|done].
Qed.

(** What becomes of [host:port]. *)
Lemma split_plain h p : 58 ∉ h -> 91 ∉ h -> 93 ∉ h -> 58 ∉ p -> 91 ∉ p -> 93 ∉ p ->
  split_host_port (h ++ 58 :: p) = Ret (h, p).
Proof.
  intros H1 H2 H3 P1 P2 P3. unfold split_host_port. rewrite last_index_app by done.
  assert (match h ++ 58 :: p with b :: _ => b =? 91 | [] => false end = false) as ->.
  { destruct h as [|b h]; [done|]. cbn [app]. apply Z.eqb_neq. apply not_elem_of_cons in H2 as [H2 _]. congruence. }
  rewrite take_app. assert (has_byte 58 h = false) as -> by (by apply has_byte_false).
  rewrite !drop_0.
  assert (has_byte 91 (h ++ 58 :: p) = false) as ->.
  { apply has_byte_false. rewrite not_elem_of_app, not_elem_of_cons. done. }
  assert (has_byte 93 (h ++ 58 :: p) = false) as ->.
  { apply has_byte_false. rewrite not_elem_of_app, not_elem_of_cons. done. }
  by rewrite drop_behind.
Qed.

Lemma split_bracketed h p : 91 ∉ h -> 93 ∉ h -> 58 ∉ p -> 91 ∉ p -> 93 ∉ p ->
  split_host_port ((91 :: h ++ [93]) ++ 58 :: p) = Ret (h, p).
Proof.
  intros H2 H3 P1 P2 P3. unfold split_host_port. rewrite last_index_app by done.
  set (s := (91 :: h ++ [93]) ++ 58 :: p).
  assert (Es : s = (91 :: h) ++ 93 :: 58 :: p) by (unfold s; cbn [app]; by rewrite <- app_assoc).
  assert (Ei : length (91 :: h ++ [93]) = S (length (91 :: h))) by (cbn [length]; rewrite app_length; cbn; lia).
  assert (match s with b :: _ => b =? 91 | [] => false end = true) as -> by done.
  assert (index_byte 93 s = Some (length (91 :: h))) as ->.
  { rewrite Es. apply index_byte_app. rewrite not_elem_of_cons. done. }
  destruct (Nat.eqb_spec (S (length (91 :: h))) (length s)) as [E|_].
  { rewrite Es, app_length in E. cbn [length] in E. lia. }
  rewrite Ei, Nat.eqb_refl.
  assert (has_byte 91 (drop 1 s) = false) as ->.
  { rewrite Es. change (drop 1 ((91 :: h) ++ 93 :: 58 :: p)) with (h ++ 93 :: 58 :: p).
    apply has_byte_false. rewrite not_elem_of_app, !not_elem_of_cons. done. }
  assert (has_byte 93 (drop (S (length (91 :: h))) s) = false) as ->.
  { rewrite Es, drop_behind. apply has_byte_false. rewrite not_elem_of_cons. done. }
  do 2 f_equal.
  - rewrite Es. change (drop 1 ((91 :: h) ++ 93 :: 58 :: p)) with (h ++ 93 :: 58 :: p).
    cbn [length]. rewrite Nat.sub_succ, Nat.sub_0_r. apply take_app.
  - rewrite <- Ei. apply drop_behind.
Qed.

Lemma split_colons h p : 58 ∈ h -> head h <> Some 91 -> 58 ∉ p ->
  split_host_port (h ++ 58 :: p) = Err (EMsg "too many colons in address").
Proof.
  intros H1 H2 P1. unfold split_host_port. rewrite last_index_app by done.
  assert (match h ++ 58 :: p with b :: _ => b =? 91 | [] => false end = false) as ->.
  { destruct h as [|b h]; [by apply elem_of_nil in H1|]. cbn [app]. apply Z.eqb_neq. intros ->. by apply H2. }
  rewrite take_app. by assert (has_byte 58 h = true) as -> by (by apply has_byte_true).
Qed.

Lemma split_inv h p x : 58 ∉ p -> 91 ∉ p -> 93 ∉ p -> split_host_port (h ++ 58 :: p) = Ret x ->
  (58 ∉ h /\ 91 ∉ h /\ 93 ∉ h) \/ (exists g, h = 91 :: g ++ [93] /\ 91 ∉ g /\ 93 ∉ g).
Proof.
  intros P1 P2 P3. unfold split_host_port. rewrite last_index_app by done.
  destruct (match h ++ 58 :: p with b :: _ => b =? 91 | [] => false end) eqn:Eh.
  - destruct (index_byte 93 (h ++ 58 :: p)) as [e|] eqn:Ee; [|done].
    destruct (_ =? _)%nat; [done|]. destruct (Nat.eqb_spec (S e) (length h)) as [Ei|_]; [|by destruct (match _ with Some _ => _ | None => _ end)].
    destruct (has_byte 91 _) eqn:E1; [done|]. destruct (has_byte 93 _); [done|]. intros _. right.
    apply index_byte_some in Ee as (a & b & E & Hl & Ha).
    replace (a ++ 93 :: b) with ((a ++ [93]) ++ b) in E by (by rewrite <- app_assoc).
    apply app_inj_1 in E as [-> _]; [|rewrite app_length; cbn; lia].
    destruct a as [|c a]; [done|]. cbn [app] in Eh. apply Z.eqb_eq in Eh as ->.
    exists a. split; [done|]. apply not_elem_of_cons in Ha as [_ Ha]. split; [|done].
    apply has_byte_false in E1. change (91 ∉ (a ++ [93]) ++ 58 :: p) in E1. intros H. apply E1. rewrite !elem_of_app. by left; left.
  - rewrite take_app. destruct (has_byte 58 h) eqn:E1; [done|]. rewrite !drop_0.
    destruct (has_byte 91 _) eqn:E2; [done|]. destruct (has_byte 93 _) eqn:E3; [done|]. intros _. left.
    apply has_byte_false in E1, E2, E3. rewrite not_elem_of_app in E2, E3. tauto.
Qed.

Lemma itoa_free z : in_type I64 z -> 58 ∉ itoa z /\ 91 ∉ itoa z /\ 93 ∉ itoa z.
Proof. intros Hz. split; [|split]; intros H; apply itoa_plain in H; try done; lia. Qed.
