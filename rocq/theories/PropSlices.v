(** Property C80, and C03 and C05 in memory: slices with their backing arrays. *)
From Verif Require Import Base Arrays ArraysFacts Profile Spec ProfileFacts SliceHeap SpecSlices
  SliceHeapFacts PropArrays PropProfile.

(** * C05 in memory: the removed element is gone from the resulting slice, wherever the
    slice lies in its backing array, and no slice of another array changes. *)
Theorem C05_remove_in_memory :
  forall (T : Type) (zero : T) grow (m : mem T) h l1 x l2,
  owns m h -> view m h = l1 ++ x :: l2 ->
  (exists m' h', m_remove_saving_order zero grow m h (Z.of_nat (length l1)) = Ret (m', h') /\
     owns m' h' /\ view m' h' = l1 ++ l2 /\
     forall s, owns m s -> separate s h -> owns m' s /\ view m' s = view m s /\ separate s h') /\
  (exists m' h', m_remove m h (Z.of_nat (length l1)) = Ret (m', h') /\
     owns m' h' /\ Permutation (view m' h') (l1 ++ l2) /\
     forall s, owns m s -> separate s h -> owns m' s /\ view m' s = view m s /\ separate s h').
Proof.
  intros T zero grow m h l1 x l2 Ho Hv.
  destruct (C05_remove_one T (view m h) (Z.of_nat (length l1))) as [H _].
  destruct (H l1 x l2 Hv eq_refl) as (E1 & r & E2 & Hr). split.
  - pose proof (m_remove_saving_order_agrees zero grow m h (Z.of_nat (length l1)) Ho) as Ha.
    rewrite E1 in Ha. destruct Ha as (m' & h' & E & Hw & Hk1 & Hk2). by exists m', h'.
  - pose proof (m_remove_agrees m h (Z.of_nat (length l1)) Ho) as Ha.
    rewrite E2 in Ha. destruct Ha as (m' & h' & E & Hw & Hk1 & Hk2). exists m', h'. by rewrite Hw.
Qed.
Print Assumptions C05_remove_in_memory.

(** A slice in the middle of an array with room behind it. *)
Example C05_memory_case :
  let m : mem Z := {[ 3%nat := [9; 4; 5; 6; 7; 8] ]} in
  let h := Slice 3 1 3 5 in
  owns m h /\ view m h = [4; 5; 6] /\
  match m_remove_saving_order 0 (fun _ _ => 2%nat) m h 1 with
  | Ret (m', h') => arr m' 3 = [9; 4; 6; 6; 7; 8] /\ h' = Slice 3 1 2 5
  | _ => False
  end.
Proof.
  cbn zeta. split; [|split; [reflexivity|vm_compute; done]].
  split; cbn; [lia|]. right. eexists. split; [reflexivity|]. cbn. lia.
Qed.

(** * C03 in memory *)
Theorem C03_put_in_memory :
  forall grow (t : inttype) (m : mem Z) h v,
  owns m h -> unsigned t = true -> Forall (in_type t) (view m h) -> in_type t v ->
  strictly_ascending (view m h) ->
  exists m' h', m_put_saving_order grow t m h v = Ret (m', h') /\ owns m' h' /\
    strictly_ascending (view m' h') /\
    (forall y, y ∈ view m' h' <-> y ∈ view m h \/ y = v) /\
    forall s, owns m s -> separate s h -> owns m' s /\ view m' s = view m s /\ separate s h'.
Proof.
  intros grow t m h v Ho Ht Hf Hv Hs.
  destruct (C03_put_saving_order t (view m h) v Ht Hf Hv Hs) as (r & E & H1 & H2 & _).
  pose proof (m_put_agrees grow t m h v Ho) as Ha. rewrite E in Ha.
  destruct Ha as (m' & h' & E' & Hw & Hk1 & Hk2). exists m', h'. by rewrite Hw.
Qed.
Print Assumptions C03_put_in_memory.

(** In place, and into a new array. *)
Example C03_memory_case :
  match m_put_saving_order (fun _ _ => 1%nat) U64 {[ 0%nat := [1; 5; 9; 0] ]} (Slice 0 0 3 4) 7 with
  | Ret (m, h) => arr m 0 = [1; 5; 7; 9] /\ h = Slice 0 0 4 4
  | _ => False
  end /\
  match m_put_saving_order (fun _ _ => 1%nat) U64 {[ 0%nat := [1; 5; 9] ]} (Slice 0 0 3 3) 7 with
  | Ret (m, h) => view m h = [1; 5; 7; 9] /\ sl_cap h = 5%nat /\ view m (Slice 0 0 3 3) = [1; 5; 9]
  | _ => False
  end.
Proof. vm_compute. done. Qed.

(** * C80
    Any number of profiles, made and changed in any order in one process, with any growth
    of the slices: every call returns, and what a profile says is decided by the calls on
    it alone. *)
Theorem C80_profiles_independent :
  forall grow cs, valid_from 0 cs ->
  exists m ps, m_run grow (∅, []) cs = Ret (m, ps) /\ length ps = length (made cs) /\
    forall k p, ps !! k = Some p ->
      made cs !! k = Some (mp_user p) /\
      (forall x, m_qualify_item m p x =
         Ret (verdict_code (verdict_after (map as_request (calls_on k cs)) x))) /\
      strictly_ascending (view m (mp_likes p)) /\ strictly_ascending (view m (mp_dislikes p)) /\
      (forall x, x ∈ view m (mp_likes p) <->
         verdict_after (map as_request (calls_on k cs)) x = Liked) /\
      (forall x, x ∈ view m (mp_dislikes p) <->
         verdict_after (map as_request (calls_on k cs)) x = Disliked).
Proof.
  intros grow cs Hv. destruct (m_run_agrees grow cs Hv) as (m & ps & E & _ & Hlen & Hp).
  exists m, ps. split; [done|]. split; [done|]. intros k p Hk.
  destruct (Hp k p Hk) as (u & Hu & Hr).
  destruct (C07_last_verdict u (calls_on k cs)) as (q & Eq & Hq & Hx); [by eapply calls_on_typed|].
  rewrite Hr in Eq. injection Eq as <-. cbn in Hq. subst u.
  destruct (C08_sorted_disjoint _ (calls_on k cs) _ (calls_on_typed _ k cs Hv) Hr) as (A & B & _ & C & D).
  split; [done|]. split; [exact Hx|]. done.
Qed.
Print Assumptions C80_profiles_independent.

Definition ex_calls : list pcall :=
  [PNew 1; POp 0 (OLike 7); PNew 2; POp 1 (OLike 9); POp 0 (OLike 3); POp 1 (ODislike 7);
   POp 0 (OUnlike 7); POp 1 (OLike 2)].
Example C80_case : valid_from 0 ex_calls /\
  match m_run (fun _ n => n) (∅, []) ex_calls with
  | Ret (m, [p; q]) => view m (mp_likes p) = [3] /\ view m (mp_likes q) = [2; 9] /\
      view m (mp_dislikes q) = [7]
  | _ => False
  end.
Proof. split; [cbn; unfold is_u64; lia|vm_compute; done]. Qed.
