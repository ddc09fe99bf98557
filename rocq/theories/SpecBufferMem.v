(** What a program may do with the memory while it uses a FileBuffer. *)
From Verif Require Import Base SliceHeap SpecSlices FileBuffer FileBufferMem.

(** One step: the slices it gives do not share the array of the buffer, and whatever
    else it does leaves the bytes of the buffer alone. *)
Definition fits (c : mcall) (m : mem byte) (fb : mbuffer) : Prop :=
  match c with
  | MRead b | MWrite b => owns m b /\ separate b (mb_buffer fb)
  | MElse m' => owns m' (mb_buffer fb) /\ view m' (mb_buffer fb) = view m (mb_buffer fb)
  | _ => True
  end.

(** The program itself does not change the slice [s] in the step: it does not read into
    it, and whatever else it does leaves it alone. *)
Definition spares (s : slice) (c : mcall) (m : mem byte) : Prop :=
  match c with
  | MRead b => separate s b
  | MElse m' => owns m' s /\ view m' s = view m s
  | _ => True
  end.

(** The same for every step of a session. *)
Fixpoint proper (grow : nat -> nat -> nat) (cs : list mcall) (m : mem byte) (fb : mbuffer) : Prop :=
  match cs with
  | [] => True
  | c :: cs' => fits c m fb /\
    forall m' fb' l, m_fb_step grow c m fb = Ret (m', fb', l) -> proper grow cs' m' fb'
  end.

Fixpoint spared (grow : nat -> nat -> nat) (s : slice) (cs : list mcall) (m : mem byte) (fb : mbuffer) : Prop :=
  match cs with
  | [] => True
  | c :: cs' => spares s c m /\
    forall m' fb' l, m_fb_step grow c m fb = Ret (m', fb', l) -> spared grow s cs' m' fb'
  end.
