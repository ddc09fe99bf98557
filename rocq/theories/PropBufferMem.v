(** Property C97: a FileBuffer and the memory it shares with its users. *)
From Verif Require Import Base FileBuffer FileBufferFacts SliceHeap SpecSlices SliceHeapFacts FileBufferMem
  SpecBufferMem FileBufferMemFacts.

(** * C97 fails: a FileBuffer made from a slice writes into that slice, and a change of
    the slice changes the buffer. *)
Theorem C97_own_memory_refuted :
  ~ (forall grow m s b m' fb' l, owns m s -> owns m b -> separate b s ->
     m_fb_run grow [MWrite b] (m_new_filebuffer m (Some s)).1 (m_new_filebuffer m (Some s)).2 = Ret (m', fb', l) ->
     view m' s = view m s) /\
  ~ (forall grow m s i v m' fb' l, owns m s -> (i < sl_len s)%nat ->
     m_fb_run grow [MElse (store m s i [v])] (m_new_filebuffer m (Some s)).1 (m_new_filebuffer m (Some s)).2 =
       Ret (m', fb', l) ->
     view m' (m_bytes fb') = view m s).
Proof.
  set (m := {[ 0%nat := [1; 2; 3]; 1%nat := [9] ]} : mem byte).
  assert (owns m (Slice 0 0 3 3)) as Hs by (split; cbn; [lia|]; right; eexists; split; [reflexivity|]; cbn; lia).
  assert (owns m (Slice 1 0 1 1)) as Hb by (split; cbn; [lia|]; right; eexists; split; [reflexivity|]; cbn; lia).
  split; intros H.
  - specialize (H (fun _ _ => 0%nat) m (Slice 0 0 3 3) (Slice 1 0 1 1)).
    specialize (H _ _ _ Hs Hb ltac:(right; right; cbn; lia) eq_refl). vm_compute in H. discriminate.
  - specialize (H (fun _ _ => 0%nat) m (Slice 0 0 3 3) 1%nat 7 _ _ _ Hs ltac:(cbn; lia) eq_refl).
    vm_compute in H. discriminate.
Qed.
Print Assumptions C97_own_memory_refuted.

(** Write of bytes that Bytes gave: the buffer gets other bytes than the slice held. *)
Theorem C97_write_own_bytes_refuted :
  ~ (forall grow cs b m0 fb0 l0 m fb l,
     proper grow cs (m_new_filebuffer ∅ None).1 (m_new_filebuffer ∅ None).2 ->
     m_fb_run grow cs (m_new_filebuffer ∅ None).1 (m_new_filebuffer ∅ None).2 = Ret (m0, fb0, l0) ->
     reslice (m_bytes fb0) 0 2 = Ret b ->
     m_fb_run grow [MWrite b] m0 fb0 = Ret (m, fb, l) ->
     fb_run [CWrite (view m0 b)] (seen_fb m0 fb0) = Ret (seen_fb m fb, map snd l)).
Proof.
  intros H.
  set (w := {[ 0%nat := replicate 100 0; 1%nat := [1; 2; 3] ]} : mem byte).
  specialize (H (fun _ _ => 0%nat) [MElse w; MWrite (Slice 1 0 2 2); MSeek 1 0]).
  eassert (Hp : _); [|specialize (H _ _ _ _ _ _ _ Hp eq_refl eq_refl eq_refl); vm_compute in H; discriminate].
  split; [split; [|reflexivity]|].
  { split; cbn; [lia|]. right. eexists. split; [reflexivity|]. cbn. lia. }
  intros ? ? ? [= <- <- <-]. split; [split|].
  { split; cbn; [lia|]. right. eexists. split; [reflexivity|]. cbn. lia. }
  { right; right. vm_compute. discriminate. }
  intros ? ? ? [= <- <- <-]. split; [done|]. intros ? ? ? [= <- <- <-]. done.
Qed.
Print Assumptions C97_write_own_bytes_refuted.

(** * C97, what holds: as long as nobody else uses the array of the buffer, every session
    answers and leaves the bytes of a FileBuffer with its own memory, and changes no slice
    of another array. *)
Theorem C97_buffer_memory_partial :
  forall grow m (initial : option slice) cs,
  (forall s, initial = Some s -> owns m s) ->
  let m0 := (m_new_filebuffer m initial).1 in
  let fb0 := (m_new_filebuffer m initial).2 in
  proper grow cs m0 fb0 ->
  exists m' fb' l,
    m_fb_run grow cs m0 fb0 = Ret (m', fb', l) /\
    fb_run (map fst l) (new_filebuffer (from_option (view m) [] initial)) =
      Ret (FB (view m' (m_bytes fb')) (mb_offset fb') (mb_closed fb'), map snd l) /\
    (forall s, owns m s -> from_option (separate s) True initial -> spared grow s cs m0 fb0 ->
       view m' s = view m s).
Proof.
  intros grow m initial cs Hinit m0 fb0 Hp.
  assert (Hbase : keeps m (default empty_slice initial) m0 (mb_buffer fb0) /\
                  view m0 (mb_buffer fb0) = from_option (view m) [] initial /\
                  mb_offset fb0 = 0 /\ mb_closed fb0 = false).
  { subst m0 fb0. destruct initial as [s|]; cbn.
    - split; [by apply keeps_refl, Hinit|done].
    - split; [apply (make_bytes_keeps m 100)|done]. }
  destruct Hbase as ([Ho Hk] & Hv & Hoff & Hcl).
  assert (Hseen : seen_fb m0 fb0 = new_filebuffer (from_option (view m) [] initial))
    by (unfold seen_fb, new_filebuffer; by rewrite Hv, Hoff, Hcl).
  assert (Hi : fb_inv (seen_fb m0 fb0)) by (rewrite Hseen; unfold fb_inv; cbn; lia).
  destruct (m_fb_run_ok grow cs m0 fb0 Ho Hi Hp) as (m' & fb' & l & E & R & _ & _ & Hs).
  exists m', fb', l. split; [done|]. split; [by rewrite <- Hseen|].
  intros s Hos Hsep Hsp.
  destruct (Hk s Hos) as (H1 & H2 & H3); [destruct initial; [done|by right; left]|].
  destruct (Hs s H1 H3 Hsp) as (_ & H4 & _). congruence.
Qed.
Print Assumptions C97_buffer_memory_partial.

(** * A Read puts the bytes it answers at the front of the given slice and leaves its rest. *)
Theorem C97_read_into_partial :
  forall grow m (initial : option slice) cs b,
  (forall s, initial = Some s -> owns m s) ->
  let m0 := (m_new_filebuffer m initial).1 in
  let fb0 := (m_new_filebuffer m initial).2 in
  proper grow (cs ++ [MRead b]) m0 fb0 ->
  exists m1 fb1 l1 m2 fb2 r,
    m_fb_run grow cs m0 fb0 = Ret (m1, fb1, l1) /\
    m_fb_run grow (cs ++ [MRead b]) m0 fb0 = Ret (m2, fb2, l1 ++ [(CRead (sl_len b), r)]) /\
    view m2 b = res_bytes r ++ drop (length (res_bytes r)) (view m1 b) /\
    view m2 (m_bytes fb2) = view m1 (m_bytes fb1).
Proof.
  intros grow m initial cs b Hinit m0 fb0 Hp.
  assert (Ho : owns m0 (mb_buffer fb0)).
  { subst m0 fb0. destruct initial as [s|]; cbn; [by apply Hinit|exact (proj1 (make_bytes_keeps m 100 empty_slice))]. }
  assert (Hi : fb_inv (seen_fb m0 fb0)).
  { subst m0 fb0. unfold fb_inv. destruct initial as [s|]; cbn; lia. }
  destruct (m_fb_run_ok grow cs m0 fb0 Ho Hi (proper_front _ _ _ _ _ Hp)) as (m1 & fb1 & l1 & E1 & _ & Ho1 & Hi1 & _).
  destruct (proper_app _ _ _ _ _ _ _ _ Hp E1) as [_ [Hf _]].
  destruct (m_fb_step_ok grow (MRead b) m1 fb1 Ho1 Hi1 Hf) as (m2 & fb2 & l2 & E2 & R2 & _ & Hr & _).
  destruct (Hr b eq_refl) as (r & -> & Hv). exists m1, fb1, l1, m2, fb2, r. split; [done|].
  split; [rewrite (m_fb_run_app _ _ _ _ _ _ _ _ E1); cbn [m_fb_run]; rewrite E2; done|]. split; [done|].
  cbn in R2. unfold fb_read, seen_fb in R2. cbn in R2. unfold m_bytes.
  destruct (mb_closed fb1); [by injection R2|]. destruct (_ =? 0); [by injection R2|].
  unfold go_slice in R2. destruct (_ && _); [by injection R2|done].
Qed.
Print Assumptions C97_read_into_partial.

(** A buffer made from three bytes in an array with room for one more: the first write stays
    in that array, the second moves the buffer to a new one, the slice [other] keeps its
    bytes; at the end four bytes are read into [other]. *)
Example C97_case :
  let m : mem byte := {[ 0%nat := [1; 2; 3; 0]; 1%nat := [8; 9]; 2%nat := [5; 6; 7; 4; 3] ]} in
  let grow : nat -> nat -> nat := fun _ _ => 0%nat in
  let s := Slice 0 0 3 4 in
  let b := Slice 1 0 2 2 in
  let other := Slice 2 0 5 5 in
  let cs := [MSeek 2 0; MWrite b; MWrite b; MTruncate 4; MTruncate 5; MSeek 1 0] in
  owns m s /\ proper grow (cs ++ [MRead other]) m (m_new_filebuffer m (Some s)).2 /\
  spared grow other cs m (m_new_filebuffer m (Some s)).2 /\
  match m_fb_run grow (cs ++ [MRead other]) m (m_new_filebuffer m (Some s)).2 with
  | Ret (m', fb', l) => view m' (m_bytes fb') = [1; 2; 8; 9; 0] /\ view m' other = [2; 8; 9; 0; 3] /\
      arr m' 0 = [1; 2; 8; 9]
  | _ => False
  end.
Proof.
  cbn zeta.
  split; [split; cbn; [lia|]; right; eexists; split; [reflexivity|]; cbn; lia|].
  split; [|split; [|vm_compute; done]].
  - Local Ltac go := let E := fresh in intros ? ? ? E; vm_compute in E; injection E as <- <- <-.
    Local Ltac slices := split; [split; cbn; [lia|]; right; eexists; split; [reflexivity|]; cbn; lia|
      right; right; vm_compute; discriminate].
    cbn [app proper fits]. split; [exact I|go]. split; [slices|go]. split; [slices|go].
    split; [exact I|go]. split; [exact I|go]. split; [exact I|go]. split; [slices|]. intros. exact I.
  - cbn [spared spares]. do 6 (split; [exact I|go]). exact I.
Qed.
