(** IndexOf of internal/helpers/arrays.go: C113. *)
From Verif Require Import Base Arrays Spec ArraysFacts PropArrays.

(** * C113 *)

Lemma index_of_from_first {T} (eqb : T -> T -> bool) (h : list T) (x : T) : forall k,
  (exists (i : nat) (v : T), index_of_from eqb k h x = k + Z.of_nat i /\ h !! i = Some v /\ eqb v x = true /\
     forall (j : nat) (w : T), (j < i)%nat -> h !! j = Some w -> eqb w x = false) \/
  (index_of_from eqb k h x = -1 /\ forall (j : nat) (w : T), h !! j = Some w -> eqb w x = false).
Proof.
  induction h as [|v h IH]; intros k; cbn [index_of_from]; [by right|].
  destruct (eqb v x) eqn:E.
  - left. exists 0%nat, v. split; [lia|]. split; [done|]. split; [done|]. intros j w Hj. lia.
  - destruct (IH (k + 1)) as [(i & w & H1 & H2 & H3 & H4) | (H1 & H2)].
    + left. exists (S i), w. split; [lia|]. split; [done|]. split; [done|].
      intros [|j] u Hj Hu; [by injection Hu as <-|]. apply (H4 j u); [lia|done].
    + right. split; [done|]. intros [|j] u Hu; [by injection Hu as <-|by apply (H2 j u)].
Qed.

(** [eqb] is the == of the element type, whatever it is: that of floats, for which
    NaN is not equal to itself, too. *)
Theorem C113_index_of_first :
  forall (T : Type) (eqb : T -> T -> bool) (h : list T) (x : T),
  (exists (i : nat) (v : T), index_of eqb h x = Z.of_nat i /\ h !! i = Some v /\ eqb v x = true /\
     forall (j : nat) (w : T), (j < i)%nat -> h !! j = Some w -> eqb w x = false) \/
  (index_of eqb h x = -1 /\ forall (j : nat) (w : T), h !! j = Some w -> eqb w x = false).
Proof.
  intros T eqb h x. destruct (index_of_from_first eqb h x 0) as [(i & v & H) | H]; [left|by right].
  exists i, v. unfold index_of. by rewrite Z.add_0_l in H.
Qed.
Print Assumptions C113_index_of_first.

(** On an ascending slice BinaryIndexOf finds an element exactly if IndexOf does, at or
    behind the place IndexOf returns. *)
Theorem C113_searches_agree :
  forall (T : Type) (eqb ltb : T -> T -> bool), total_order eqb ltb ->
  forall (h : list T) (x : T), ascending_by ltb h ->
  exists z, binary_index_of eqb ltb h x = Ret z /\ (z = -1 <-> index_of eqb h x = -1) /\ index_of eqb h x <= z.
Proof.
  intros T eqb ltb Ho h x Hs.
  destruct (C01_binary_index_of_exact T eqb ltb Ho h x Hs) as (z & Hz & Hcase). exists z. split; [done|].
  assert (Heq : forall a b, eqb a b = true <-> a = b) by apply Ho.
  destruct (C113_index_of_first T eqb h x) as [(i & v & H1 & H2 & H3 & H4) | (H1 & H2)].
  - apply Heq in H3. subst v. destruct Hcase as [(k & -> & Hk) | (-> & Hk)]; [|by destruct (Hk i)].
    split; [lia|]. rewrite H1. destruct (decide (k < i)%nat) as [Hl|Hl]; [|lia].
    pose proof (H4 k x Hl Hk) as E. assert (eqb x x = true) by by apply Heq. congruence.
  - destruct Hcase as [(k & -> & Hk) | (-> & Hk)]; [|split; [done|lia]].
    pose proof (H2 k x Hk) as E. assert (eqb x x = true) by by apply Heq. congruence.
Qed.
Print Assumptions C113_searches_agree.

Example C113_case :
  index_of Z.eqb [4; 7; 7; 9] 7 = 1 /\ index_of Z.eqb [4; 7; 7; 9] 8 = -1 /\
  index_of (fun a b => bool_decide (a = b)) [[97]; []; [98; 99]] [] = 1.
Proof. by vm_compute. Qed.
